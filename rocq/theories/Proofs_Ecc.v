(** Lemmas for C56. *)
From Verif Require Import Base BaseLemmas Model_ByteArray Model_Ecc Spec_Ecc.
From Coq Require Import ZifyBool.
Local Open Scope Z_scope.
Local Open Scope list_scope.

Lemma be_cons x l : be_value (x :: l) = be_value l + 2 ^ (8 * zlen l) * x.
Proof. unfold be_value. cbn [rev]. rewrite le_value_app. cbn [le_value]. unfold zlen. rewrite rev_length. lia. Qed.
Lemma be_bound l : bytes_ok l -> 0 <= be_value l < 2 ^ (8 * zlen l).
Proof. intros H. unfold be_value. replace (zlen l) with (zlen (rev l)) by (unfold zlen; now rewrite rev_length). apply le_value_bound, bytes_ok_rev, H. Qed.

Lemma der_len n b k : 1 <= k -> der_integer n b -> n < 2 ^ (8 * k - 1) -> zlen b <= k.
Proof.
  intros Hk (Hb & Hv & Hs) Hn. destruct b as [|x [|y t]]; [destruct Hs|cbn; lia|]. destruct Hs as [Hx Hy].
  apply bytes_ok_cons in Hb. destruct Hb as [Bx Hb]. pose proof Hb as Hb1. apply bytes_ok_cons in Hb. destruct Hb as [By Bt].
  destruct (Z_le_gt_dec (zlen (x :: y :: t)) k) as [|G]; [assumption|exfalso]. rewrite !zlen_cons in G.
  rewrite be_cons in Hv. pose proof (be_bound _ Hb1) as B1. unfold byte_ok in Bx, By.
  assert (0 <= zlen t) as Ht by apply zlen_nonneg.
  destruct (Z.eq_dec x 0) as [E|Hx0].
  - subst x. specialize (Hy eq_refl). rewrite be_cons in Hv. pose proof (be_bound _ Bt) as B2.
    assert (2 ^ (8 * k - 1) <= 2 ^ (8 * zlen t + 7)) as P by (apply Z.pow_le_mono_r; lia).
    rewrite Z.pow_add_r in P by lia. change (2 ^ 7) with 128 in P. assert (0 < 2 ^ (8 * zlen t)) by (apply Z.pow_pos_nonneg; lia). nia.
  - assert (2 ^ (8 * k - 1) <= 2 ^ (8 * zlen (y :: t))) as P by (apply Z.pow_le_mono_r; rewrite ?zlen_cons; lia).
    assert (0 < 2 ^ (8 * zlen (y :: t))) by (apply Z.pow_pos_nonneg; rewrite ?zlen_cons; lia). nia.
Qed.
Lemma der_size r s sig : scalar r -> low_s s -> strict_der r s sig -> zlen sig <= 71 /\ bytes_ok sig.
Proof.
  intros [R1 R2] [S1 S2] (br & bs & Hr & Hs & ->).
  assert (zlen br <= 33) as L1 by (eapply der_len; [lia|exact Hr|]; etransitivity; [exact R2|reflexivity]).
  assert (zlen bs <= 32) as L2 by (eapply der_len; [lia|exact Hs|]; eapply Z.le_lt_trans; [exact S2|reflexivity]).
  pose proof (zlen_nonneg br). pose proof (zlen_nonneg bs).
  split; [rewrite !zlen_cons, zlen_app, !zlen_cons; lia|].
  repeat (apply bytes_ok_cons; split; [unfold byte_ok; lia|]). apply bytes_ok_app. split; [apply Hr|].
  repeat (apply bytes_ok_cons; split; [unfold byte_ok; lia|]). apply Hs.
Qed.
Lemma lower_low s : scalar s -> low_s (if s <=? N / 2 then s else N - s).
Proof. intros [A B]. unfold low_s. destruct (Z.leb_spec s (N / 2)); [lia|]. change (N / 2) with ((N - 1) / 2) in *. change ((N - 1) / 2) with ((N-1)/2) in *. unfold N in *. lia. Qed.
Lemma low_scalar s : low_s s -> scalar s.
Proof. intros [A B]. split; [exact A|]. eapply Z.le_lt_trans; [exact B|reflexivity]. Qed.
Lemma lower_valid S pk m r s : scheme_ok S -> valid S pk m r (if s <=? N / 2 then s else N - s) = valid S pk m r s.
Proof. intros [_ H]. destruct (s <=? N / 2); [reflexivity|apply H]. Qed.

Lemma parse_none (f : list Z -> option Z) b : parses_keys f -> bytes_ok b -> ~ secret_key b -> f b = None.
Proof. intros H B Hn. destruct (f b) as [d|] eqn:E; [|reflexivity]. apply (H b B) in E. destruct E as [E _]. contradiction. Qed.
Lemma parse_some (f : list Z -> option Z) b : parses_keys f -> bytes_ok b -> secret_key b -> f b = Some (be_value b).
Proof. intros H B Hn. apply (H b B). auto. Qed.
Lemma msg_none (f : list Z -> option (list Z)) b : parses_messages f -> bytes_ok b -> zlen b <> 32 -> f b = None.
Proof. intros H B Hn. destruct (f b) as [d|] eqn:E; [|reflexivity]. apply (H b B) in E. destruct E as [E _]. contradiction. Qed.
Lemma msg_some (f : list Z -> option (list Z)) b : parses_messages f -> bytes_ok b -> zlen b = 32 -> f b = Some b.
Proof. intros H B Hn. apply (H b B). auto. Qed.

Lemma sign_facts S E sk m : scheme_ok S -> backend S E -> bytes_ok sk -> bytes_ok (ba_data m) ->
  (~ secret_key sk -> ecc_sign E sk m = Err (EInvalidSize 32 (zlen sk))) /\
  (secret_key sk -> zlen (ba_data m) <> 32 -> ecc_sign E sk m = Err (EInvalidSize 32 (zlen (ba_data m)))) /\
  (secret_key sk -> zlen (ba_data m) = 32 -> exists data r s, ecc_sign E sk m = Ok (BA data None FEcdsaSign (Some [m])) /\
     scalar r /\ low_s s /\ strict_der r s data /\ valid S (key_of S (be_value sk)) (ba_data m) r s = true).
Proof.
  intros HS [(L & HL & ->)|(L & HL & ->)] Bs Bm.
  - destruct HL as (PK & PM & WD & _ & _ & _ & _ & SV & _ & LS & _). cbn [c_ecc ecc_sign]. unfold c_ecc_sign.
    split; [|split].
    + intros Hn. rewrite (parse_none _ _ PK Bs Hn). reflexivity.
    + intros Hk Hn. rewrite (parse_some _ _ PK Bs Hk), (msg_none _ _ PM Bm Hn). reflexivity.
    + intros Hk Hn. rewrite (parse_some _ _ PK Bs Hk), (msg_some _ _ PM Bm Hn). cbn [or_err obind].
      specialize (SV _ _ Bm Hn (proj2 Hk)). specialize (LS _ _ Bm Hn (proj2 Hk)). destruct (c_sign L (ba_data m) (be_value sk)) as [r s]. destruct SV as (Hr & Hs & Hv).
      eexists _, r, s. split; [reflexivity|]. auto 6.
  - destruct HL as (PK & PM & WD & _ & _ & LO & _ & SV & _ & _). cbn [rust_ecc ecc_sign]. unfold rust_ecc_sign.
    split; [|split].
    + intros Hn. rewrite (parse_none _ _ PK Bs Hn). reflexivity.
    + intros Hk Hn. rewrite (parse_some _ _ PK Bs Hk), (msg_none _ _ PM Bm Hn). reflexivity.
    + intros Hk Hn. rewrite (parse_some _ _ PK Bs Hk), (msg_some _ _ PM Bm Hn). cbn [or_err obind].
      specialize (SV _ _ Bm Hn (proj2 Hk)). destruct (r_sign L (ba_data m) (be_value sk)) as [r s]. destruct SV as (Hr & Hs & Hv).
      rewrite (LO r s Hs). pose proof (lower_low s Hs) as Hl. eexists _, r, _. split; [reflexivity|]. split; [exact Hr|]. split; [exact Hl|].
      split; [apply WD; [exact Hr|apply low_scalar, Hl]|]. rewrite lower_valid; assumption.
Qed.
Lemma derive_facts S E sk : backend S E -> bytes_ok sk ->
  (~ secret_key sk -> ecc_derive_pubkey E sk = Err (EInvalidSize 32 (zlen sk))) /\
  (secret_key sk -> ecc_derive_pubkey E sk = Ok (key_of S (be_value sk))).
Proof.
  intros [(L & HL & ->)|(L & HL & ->)] Bs; (split; intros Hk).
  - cbn [c_ecc ecc_derive_pubkey]. unfold c_ecc_derive_pubkey. rewrite (parse_none _ _ (proj1 HL) Bs Hk). reflexivity.
  - cbn [c_ecc ecc_derive_pubkey]. unfold c_ecc_derive_pubkey. rewrite (parse_some _ _ (proj1 HL) Bs Hk). cbn [or_err obind]. f_equal. apply HL, Hk.
  - cbn [rust_ecc ecc_derive_pubkey]. unfold rust_ecc_derive_pubkey. rewrite (parse_none _ _ (proj1 HL) Bs Hk). reflexivity.
  - cbn [rust_ecc ecc_derive_pubkey]. unfold rust_ecc_derive_pubkey. rewrite (parse_some _ _ (proj1 HL) Bs Hk). cbn [or_err obind]. f_equal. apply HL, Hk.
Qed.
Lemma verify_low S E d m sig r s : backend S E -> scalar d -> bytes_ok m -> zlen m = 32 -> scalar r -> low_s s -> strict_der r s sig ->
  ecc_verify E (key_of S d) m sig = Ok (valid S (key_of S d) m r s).
Proof.
  intros [(L & HL & ->)|(L & HL & ->)] Hd Bm Lm Hr Hs Hsig.
  - destruct HL as (_ & PM & _ & RD & _ & _ & PP & _ & _ & _ & CV). cbn [c_ecc ecc_verify]. unfold c_ecc_verify.
    rewrite (msg_some _ _ PM Bm Lm), (RD r s sig Hr (low_scalar s Hs) Hsig), (PP d Hd). cbn [or_err obind]. rewrite (CV _ _ _ _ (low_scalar s Hs)).
    destruct Hs as [_ Hs]. rewrite (proj2 (Z.leb_le _ _) Hs). cbn [andb]. destruct (valid S _ m r s); reflexivity.
  - destruct HL as (_ & PM & _ & RD & _ & _ & PP & _ & _ & RV). cbn [rust_ecc ecc_verify]. unfold rust_ecc_verify.
    rewrite (msg_some _ _ PM Bm Lm), (RD r s sig Hr (low_scalar s Hs) Hsig), (PP d Hd). cbn [or_err obind]. now rewrite (RV _ _ _ _ Hs).
Qed.
Lemma normalize_facts S E r s sig : backend S E -> scalar r -> scalar s -> strict_der r s sig ->
  exists sig', ecc_normalize_sig E sig = Ok sig' /\ strict_der r (if s <=? N / 2 then s else N - s) sig'.
Proof.
  intros [(L & HL & ->)|(L & HL & ->)] Hr Hs Hsig.
  - destruct HL as (_ & _ & WD & _ & RL & LO & _). cbn [c_ecc ecc_normalize_sig]. unfold c_ecc_normalize_sig. rewrite (RL r s sig Hr Hs Hsig). cbn [or_err obind]. rewrite (LO r s Hs).
    eexists. split; [reflexivity|]. apply WD; [exact Hr|apply low_scalar, lower_low, Hs].
  - destruct HL as (_ & _ & WD & _ & RL & LO & _). cbn [rust_ecc ecc_normalize_sig]. unfold rust_ecc_normalize_sig. rewrite (RL r s sig Hr Hs Hsig). cbn [or_err obind]. rewrite (LO r s Hs).
    eexists. split; [reflexivity|]. apply WD; [exact Hr|apply low_scalar, lower_low, Hs].
Qed.

Lemma der_integer_unique n a b : der_integer n a -> der_integer n b -> a = b.
Proof.
  assert (forall n a b, der_integer n a -> der_integer n b -> (length a <= length b)%nat -> a = b) as K.
  { clear. intros n a b (Ba & Va & Sa) (Bb & Vb & Sb) Hl.
    destruct (Nat.eq_dec (length a) (length b)) as [El|Hne].
    - rewrite <- (rev_involutive a), <- (rev_involutive b). f_equal. apply le_value_inj; [now apply bytes_ok_rev|now apply bytes_ok_rev|now rewrite !rev_length|].
      unfold be_value in *. congruence.
    - exfalso. assert (n < 2 ^ (8 * zlen a - 1)) as Hn.
      { destruct a as [|x t]; [destruct Sa|]. apply bytes_ok_cons in Ba. destruct Ba as [Bx Bt]. assert (x < 128) as Hx by (destruct t; [exact Sa|apply Sa]).
        rewrite be_cons in Va. pose proof (be_bound _ Bt). rewrite zlen_cons. replace (8 * (1 + zlen t) - 1) with (8 * zlen t + 7) by lia.
        pose proof (zlen_nonneg t). rewrite Z.pow_add_r by lia. change (2 ^ 7) with 128. unfold byte_ok in Bx. assert (0 < 2 ^ (8 * zlen t)) by (apply Z.pow_pos_nonneg; lia). nia. }
      assert (zlen b <= zlen a) as C; [|unfold zlen in C; lia]. eapply der_len; [|split; [exact Bb|split; [exact Vb|exact Sb]]|exact Hn].
      destruct a; [destruct Sa|]. rewrite zlen_cons. pose proof (zlen_nonneg a). lia. }
  intros Ha Hb. destruct (Nat.le_gt_cases (length a) (length b)); [eapply K; eassumption|symmetry; eapply K; try eassumption; lia].
Qed.
Lemma strict_der_unique r s a b : strict_der r s a -> strict_der r s b -> a = b.
Proof.
  intros (br & bs & H1 & H2 & ->) (br' & bs' & H3 & H4 & ->).
  rewrite (der_integer_unique _ _ _ H1 H3), (der_integer_unique _ _ _ H2 H4). reflexivity.
Qed.
Lemma strict_der_reads r s r' s' a : strict_der r s a -> strict_der r' s' a -> r = r' /\ s = s'.
Proof.
  intros (br & bs & (_ & <- & _) & (_ & <- & _) & ->) (br' & bs' & (_ & <- & _) & (_ & <- & _) & E).
  injection E as _ El E. assert (br = br' /\ bs = bs') as [-> ->]; [|auto].
  assert (length br = length br') as L by (unfold zlen in El; lia).
  assert (firstn (length br) (br ++ 2 :: zlen bs :: bs) = firstn (length br') (br' ++ 2 :: zlen bs' :: bs')) as F by (rewrite L, E; reflexivity).
  rewrite !firstn_app, !firstn_all, !Nat.sub_diag, !app_nil_r in F. split; [exact F|]. subst br'. apply app_inv_head in E. now injection E.
Qed.

(** A concrete DER writer and reader, to show that the crates' contracts can be met. *)
Fixpoint strip (l : list Z) : list Z :=
  match l with
  | x :: ((y :: _) as t) => if (x =? 0) && (y <? 128) then strip t else l
  | _ => l
  end.
Lemma strip_ok l : l <> [] -> bytes_ok l -> hd 0 l < 128 -> der_integer (be_value l) (strip l).
Proof.
  induction l as [|x l IH]; intros Hne Hb Hx; [congruence|]. destruct l as [|y t].
  - cbn in *. split; [exact Hb|]. split; [reflexivity|exact Hx].
  - cbn [strip]. destruct ((x =? 0) && (y <? 128)) eqn:E.
    + apply andb_prop in E. destruct E as [E1 E2]. apply bytes_ok_cons in Hb. destruct Hb as [_ Hb].
      replace (be_value (x :: y :: t)) with (be_value (y :: t)) by (rewrite (be_cons x); replace x with 0 by lia; lia).
      apply IH; [discriminate|exact Hb|cbn; lia].
    + split; [exact Hb|]. split; [reflexivity|]. cbn in Hx. split; [exact Hx|]. intros ->. cbn in E. lia.
Qed.
Definition der_enc (n : Z) : list Z := strip (be_bytes 33 n).
Lemma der_enc_ok n : scalar n -> der_integer n (der_enc n).
Proof.
  intros [A B]. assert (N < 2 ^ 256) as HN by reflexivity. assert (be_value (be_bytes 33 n) = n) as V.
  { unfold be_value, be_bytes. rewrite rev_involutive. apply le_value_bytes_small. change (8 * Z.of_nat 33) with 264.
    assert (2 ^ 256 < 2 ^ 264) by reflexivity. lia. }
  rewrite <- V at 1. unfold der_enc. assert (bytes_ok (be_bytes 33 n)) as Bo by (unfold be_bytes; apply bytes_ok_rev, le_bytes_ok).
  assert (length (be_bytes 33 n) = 33%nat) as Ln by (unfold be_bytes; rewrite rev_length; apply le_bytes_length).
  destruct (be_bytes 33 n) as [|x t] eqn:E; [discriminate|]. apply strip_ok; [discriminate|exact Bo|].
  cbn [hd]. rewrite be_cons in V. apply bytes_ok_cons in Bo. destruct Bo as [Bx Bt]. pose proof (be_bound _ Bt). cbn [length] in Ln.
  replace (zlen t) with 32 in * by (unfold zlen; lia). change (8 * 32) with 256 in *. unfold byte_ok in Bx.
  destruct (Z_lt_ge_dec x 128); [assumption|exfalso]. revert V HN B. generalize (2 ^ 256). intros p V HN B. nia.
Qed.
Definition der_ser (g : Z * Z) : list Z :=
  let br := der_enc (fst g) in let bs := der_enc (snd g) in
  0x30 :: (4 + zlen br + zlen bs) :: 0x02 :: zlen br :: br ++ 0x02 :: zlen bs :: bs.
Lemma der_ser_ok : writes_der der_ser.
Proof. intros r s Hr Hs. exists (der_enc r), (der_enc s). split; [now apply der_enc_ok|]. split; [now apply der_enc_ok|reflexivity]. Qed.
Definition der_parse (sig : list Z) : option (Z * Z) :=
  match sig with
  | _ :: _ :: _ :: n :: rest => Some (be_value (firstn (Z.to_nat n) rest), be_value (skipn 2 (skipn (Z.to_nat n) rest)))
  | _ => None
  end.
Lemma der_parse_ok : reads_der der_parse.
Proof.
  intros r s sig _ _ (br & bs & (_ & <- & _) & (_ & <- & _) & ->). cbn [der_parse].
  replace (Z.to_nat (zlen br)) with (length br) by (unfold zlen; lia). rewrite firstn_app_exact, skipn_app_exact. reflexivity.
Qed.
