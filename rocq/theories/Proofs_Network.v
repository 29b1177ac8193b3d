(** Lemmas about the network-side specification: numbers, pushes, transaction bytes. *)
From Verif Require Import Base BaseLemmas Model_Encoding Spec_Encoding Proofs_Encoding Spec_Integer Spec_Script Spec_Network.
Local Open Scope list_scope.
Local Open Scope Z_scope.

(** ** Numbers *)
Lemma digits_spec fuel : forall n, 0 <= n < 2 ^ (8 * Z.of_nat fuel) ->
  le_value (digits fuel n) = n /\ bytes_ok (digits fuel n) /\ (forall r top, digits fuel n = r ++ [top] -> top <> 0).
Proof.
  induction fuel as [|f IH]; intros n Hn.
  - change (8 * Z.of_nat 0) with 0 in Hn. change (2 ^ 0) with 1 in Hn. cbn. split; [lia|]. split; [constructor|]. intros [|? ?] ? H; discriminate H.
  - cbn [digits]. destruct (Z.eqb_spec n 0) as [->|Hz].
    + split; [reflexivity|]. split; [constructor|]. intros [|? ?] ? H; discriminate H.
    + assert (0 <= n / 256 < 2 ^ (8 * Z.of_nat f)) as Hq.
      { split; [apply Z.div_pos; lia|]. apply Z.div_lt_upper_bound; [lia|]. rewrite Nat2Z.inj_succ in Hn.
        replace (8 * Z.succ (Z.of_nat f)) with (8 + 8 * Z.of_nat f) in Hn by lia. rewrite Z.pow_add_r in Hn by lia. change (2 ^ 8) with 256 in Hn. lia. }
      destruct (IH _ Hq) as (V & B & L). pose proof (Z.mod_pos_bound n 256 ltac:(lia)) as Hm. split; [|split].
      * cbn [le_value]. rewrite V. pose proof (Z.div_mod n 256 ltac:(lia)). lia.
      * apply bytes_ok_cons. split; [unfold byte_ok; lia|exact B].
      * intros r top E. destruct r as [|x r].
        -- cbn in E. injection E as E1 E2. subst top. assert (n / 256 = 0) as Q by (rewrite <- V, E2; reflexivity). pose proof (Z.div_mod n 256 ltac:(lia)). lia.
        -- cbn in E. injection E as _ E2. exact (L _ _ E2).
Qed.
Lemma digits_abs z : z <> 0 -> exists r top, digits (S (Z.to_nat (Z.log2 (Z.abs z)))) (Z.abs z) = r ++ [top] /\ bytes_ok r /\ 1 <= top <= 255 /\
  Z.abs z = le_value r + top * 2 ^ (8 * zlen r).
Proof.
  intros Hz. assert (0 < Z.abs z) as Ha by lia.
  assert (0 <= Z.abs z < 2 ^ (8 * Z.of_nat (S (Z.to_nat (Z.log2 (Z.abs z)))))) as Hn.
  { split; [lia|]. pose proof (Z.log2_spec _ Ha) as [_ H]. eapply Z.lt_le_trans; [exact H|]. apply Z.pow_le_mono_r; [lia|]. pose proof (Z.log2_nonneg (Z.abs z)). lia. }
  destruct (digits_spec _ _ Hn) as (V & B & L). set (m := digits _ _) in *. clearbody m.
  destruct (list_snoc m) as [->|(r & top & ->)]; [cbn in V; lia|]. exists r, top. split; [reflexivity|].
  apply bytes_ok_app in B. destruct B as [B1 B2]. apply bytes_ok_cons in B2. destruct B2 as [B2 _]. specialize (L r top eq_refl). unfold byte_ok in B2.
  split; [exact B1|]. split; [lia|]. rewrite <- V, le_value_app. cbn [le_value]. lia.
Qed.
Lemma enc_correct z : script_num (enc z) = z /\ minimal_num (enc z) /\ bytes_ok (enc z).
Proof.
  destruct (Z.eq_dec z 0) as [->|Hz]. { cbn. split; [reflexivity|]. split; [now left|constructor]. }
  destruct (digits_abs z Hz) as (r & top & E & B & Ht & V). unfold enc. rewrite E, rev_app_distr. cbn [rev app]. rewrite rev_involutive.
  pose proof (zlen_nonneg r) as Lr. pose proof (le_value_bound r B) as [Vr0 Vr1].
  assert (0 < 2 ^ (8 * zlen r)) as P by (apply Z.pow_pos_nonneg; lia).
  destruct (Z.leb_spec 128 top) as [T|T].
  - set (s := if z <? 0 then 128 else 0). split; [|split].
    + unfold script_num. destruct (r ++ [top; s]) as [|x y] eqn:X; [now destruct r|]. rewrite <- X. clear X x y.
      replace (zlen (r ++ [top; s])) with (zlen r + 2) by (rewrite zlen_app; reflexivity).
      replace (8 * (zlen r + 2) - 1) with (8 * zlen r + 15) by lia. rewrite Z.pow_add_r by lia. change (2 ^ 15) with 32768.
      rewrite le_value_app. cbn [le_value]. subst s. destruct (Z.ltb_spec z 0); cbn zeta.
      * destruct (Z.ltb_spec (le_value r + 2 ^ (8 * zlen r) * (top + 256 * (128 + 256 * 0))) (2 ^ (8 * zlen r) * 32768)); nia.
      * destruct (Z.ltb_spec (le_value r + 2 ^ (8 * zlen r) * (top + 256 * (0 + 256 * 0))) (2 ^ (8 * zlen r) * 32768)); nia.
    + right. exists (r ++ [top]), s. split; [now rewrite <- app_assoc|]. right. exists r, top. auto.
    + apply bytes_ok_app. split; [exact B|]. apply bytes_ok_cons. split; [unfold byte_ok; lia|]. apply bytes_ok_cons. split; [subst s; destruct (z <? 0); unfold byte_ok; lia|constructor].
  - set (s := if z <? 0 then top + 128 else top). split; [|split].
    + unfold script_num. destruct (r ++ [s]) as [|x y] eqn:X; [now destruct r|]. rewrite <- X. clear X x y.
      replace (zlen (r ++ [s])) with (zlen r + 1) by (rewrite zlen_app; reflexivity).
      replace (8 * (zlen r + 1) - 1) with (8 * zlen r + 7) by lia. rewrite Z.pow_add_r by lia. change (2 ^ 7) with 128.
      rewrite le_value_app. cbn [le_value]. subst s. destruct (Z.ltb_spec z 0); cbn zeta.
      * destruct (Z.ltb_spec (le_value r + 2 ^ (8 * zlen r) * (top + 128 + 256 * 0)) (2 ^ (8 * zlen r) * 128)); nia.
      * destruct (Z.ltb_spec (le_value r + 2 ^ (8 * zlen r) * (top + 256 * 0)) (2 ^ (8 * zlen r) * 128)); nia.
    + right. exists r, s. split; [reflexivity|]. left. subst s. destruct (z <? 0).
      * replace (top + 128) with (top + 1 * 128) by lia. rewrite Z.mod_add by lia. rewrite Z.mod_small by lia. lia.
      * rewrite Z.mod_small by lia. lia.
    + apply bytes_ok_app. split; [exact B|]. apply bytes_ok_cons. split; [subst s; destruct (z <? 0); unfold byte_ok; lia|constructor].
Qed.
Lemma enc_unique v : bytes_ok v -> minimal_num v -> enc (script_num v) = v.
Proof. intros B M. destruct (enc_correct (script_num v)) as (V & M' & B'). apply minimal_unique; auto. Qed.
Lemma enc_int i : script_int i -> enc i = encode_int i.
Proof. unfold script_int. intros H. destruct (encode_int_correct i ltac:(lia)) as (V & M & B & _). rewrite <- V at 1. now apply enc_unique. Qed.
Lemma minimalb_iff v : minimalb v = true <-> minimal_num v.
Proof.
  unfold minimalb, minimal_num. destruct (list_snoc v) as [->|(r & l & ->)]. { cbn. split; auto. }
  rewrite rev_app_distr. cbn [rev app]. split.
  - intros H. right. exists r, l. split; [reflexivity|]. apply Bool.orb_true_iff in H. destruct H as [H|H].
    + left. destruct (Z.eqb_spec (l mod 128) 0); [discriminate|assumption].
    + right. destruct (list_snoc r) as [->|(j & p & ->)]; [discriminate|]. rewrite rev_app_distr in H. cbn in H. exists j, p. split; [reflexivity|lia].
  - intros [H|(r' & l' & H & K)]; [destruct r; discriminate|]. apply app_inj_tail in H. destruct H as [<- <-]. apply Bool.orb_true_iff.
    destruct K as [K|(j & p & -> & K)]; [left; destruct (Z.eqb_spec (l mod 128) 0); [contradiction|reflexivity]|right]. rewrite rev_app_distr. cbn. lia.
Qed.
Lemma num_some v z : num v = Some z <-> zlen v <= 4 /\ minimal_num v /\ script_num v = z.
Proof.
  unfold num. destruct (Z.leb_spec (zlen v) 4); cbn [andb].
  - destruct (minimalb v) eqn:M. { apply minimalb_iff in M. split; [intros [= <-]; auto|intros (_ & _ & <-); reflexivity]. }
    split; [discriminate|]. intros (_ & K & _). apply minimalb_iff in K. congruence.
  - split; [discriminate|]. lia.
Qed.
Lemma num_encode i : script_int i -> num (encode_int i) = Some i.
Proof. unfold script_int. intros H. destruct (encode_int_correct i ltac:(lia)) as (V & M & B & L). apply num_some. split; [unfold zlen; lia|auto]. Qed.
Lemma same_iff a : forall b, same a b = true <-> a = b.
Proof.
  induction a as [|x a IH]; intros [|y b]; cbn; split; try easy.
  - intros H. apply Bool.andb_true_iff in H. destruct H as [H1 H2]. apply Z.eqb_eq in H1. apply IH in H2. congruence.
  - intros [= -> ->]. rewrite Z.eqb_refl. now apply IH.
Qed.
