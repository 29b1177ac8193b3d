From Verif Require Import Base BaseLemmas Model_ByteArray Model_Address Spec_Address Proofs_Address Proofs_Address2 Proofs_AddressDist.
From Coq Require Import ZifyBool ZifyNat.
Local Open Scope Z_scope.

Lemma letter_eqb_lower x y : letter_eqb x y = (lower x =? lower y).
Proof. unfold letter_eqb, lower. destruct (andb (65 <=? x) (x <=? 90)) eqn:E1, (andb (65 <=? y) (y <=? 90)) eqn:E2; lia. Qed.
Lemma changed_weight a : forall b c d, Forall2 b32_char c (map lower a) -> Forall2 b32_char d (map lower b) -> (weight (diff c d) <= changed a b)%nat.
Proof.
  induction a as [|x a IH]; intros [|y b] c d Hc Hd; cbn [map] in *; inversion Hc as [|s ? c' ? Hs Hc']; inversion Hd as [|s' ? d' ? Hs' Hd']; subst; cbn [diff weight changed]; try lia.
  specialize (IH b c' d' Hc' Hd'). rewrite letter_eqb_lower. destruct (Z.eqb_spec (lower x) (lower y)) as [E|]; [|unfold is0; destruct (Z.lxor s s' =? 0); lia].
  rewrite E in Hs. assert (s = s') as <-. { pose proof (b32_inj [s] [s'] [lower y]) as H. assert ([s] = [s']) as Hx by (apply H; repeat constructor; assumption || apply Hs || apply Hs'). congruence. }
  rewrite Z.lxor_nilpotent. cbn [is0 Z.eqb]. unfold is0. cbn [Z.eqb]. lia.
Qed.
Lemma changed_same a : forall b, length a = length b -> (changed a b = 0%nat <-> same_letters a b).
Proof.
  induction a as [|x a IH]; intros [|y b] Hl; try discriminate; cbn [changed]; [split; [constructor|reflexivity]|].
  rewrite same_letters_lower. cbn [map]. rewrite letter_eqb_lower. specialize (IH b ltac:(cbn in Hl; congruence)). rewrite same_letters_lower in IH.
  destruct (Z.eqb_spec (lower x) (lower y)) as [E|N]; split; intros H; try lia.
  - f_equal; [assumption|]. apply IH. lia.
  - injection H as _ H. apply IH in H. lia.
  - injection H as H _. congruence.
Qed.
Lemma from_cash_addr_subst pre w v a : from_cash_addr (pre ++ w) = Ok a -> length w = length v ->
  (In 58 pre \/ (pre = [] /\ ~ In 58 w /\ ~ In 58 v)) -> (1 <= changed w v <= 4)%nat ->
  exists e, letter_or_checksum e /\ from_cash_addr (pre ++ v) = Err e.
Proof.
  intros H Lw Hc Hd. apply from_cash_addr_ok_iff in H. destruct H as (p & sy & t & h & rest & V & L43 & _).
  assert (~ map lower w = map lower v) as Hne by (intros E; apply same_letters_lower, changed_same in E; [lia|assumption]).
  assert (forall r a b, Forall2 b32_char a (r ++ map lower w) -> Forall2 b32_char b (r ++ map lower v) -> (length a = 42 \/ length a = 43)%nat ->
            remainder p a = 1 -> remainder p b = 1 -> False) as K.
  { intros r x y Fa Fb La Ra Rb. apply Hne. apply Forall2_app_inv_r' in Fa, Fb. destruct Fa as (a1 & a2 & -> & A1 & A2), Fb as (b1 & b2 & -> & B1 & B2).
    rewrite (b32_inj _ _ _ A1 B1) in *. clear A1 a1.
    pose proof (Forall2_len A2) as L1. pose proof (Forall2_len B2) as L2. rewrite map_length in L1, L2.
    assert (b1 ++ a2 = b1 ++ b2) as E.
    { apply (remainder_dist p); [apply Forall_app; split; [exact (b32_sym _ _ B1)|exact (b32_sym _ _ A2)]|apply Forall_app; split; [exact (b32_sym _ _ B1)|exact (b32_sym _ _ B2)]
        |rewrite !app_length; lia|lia| |congruence].
      assert (forall z x y, weight (diff (z ++ x) (z ++ y)) = weight (diff x y)) as W.
      { induction z as [|q z IH]; intros; [reflexivity|]. cbn [app diff weight]. rewrite Z.lxor_nilpotent, IH. reflexivity. }
      rewrite W. pose proof (changed_weight w v a2 b2 A2 B2). lia. }
    apply app_inv_head in E. subst b2. eapply b32_chars_fun; eauto. }
  assert (forall q sy', ~ valid_letters (pre ++ v) q sy') as HN.
  { intros q sy' V'. apply valid_letters_iff in V, V'. destruct V as (c & E & F & R), V' as (d & E' & F' & R').
    apply split_default_iff in E, E'. destruct Hc as [Hi|(-> & Ni & Ni')].
    - rewrite !map_app in E, E'. assert (In 58 (map lower pre)) as Hi' by now apply lower_in_colon. apply divided_prefix in E, E'; try assumption. destruct E as (r & Ep & ->), E' as (r' & Ep' & ->).
      rewrite Ep in Ep'. injection Ep' as <- <-. eapply K; eauto.
    - cbn [app] in *. rewrite <- lower_in_colon in Ni, Ni'. destruct E as [[E _]|(_ & -> & ->)]; [exfalso; apply Ni; rewrite E; apply in_app_iff; right; now left|].
      destruct E' as [[E' _]|(_ & -> & ->)]; [exfalso; apply Ni'; rewrite E'; apply in_app_iff; right; now left|].
      apply (K [] sy sy'); assumption. }
  destruct (from_cash_addr_cases (pre ++ v)) as [(p' & syms' & t' & h' & rest' & B1 & _)|[(p' & syms' & B1 & _)|[(p' & syms' & b & h' & rest' & B1 & _)|(_ & n & ? & E)]]];
   [exfalso; eapply HN; eauto|exfalso; eapply HN; eauto|exfalso; eapply HN; eauto|eauto].
Qed.
Lemma upper_same s : same_letters (map upper_case s) s.
Proof.
  induction s as [|x s IH]; cbn; constructor; [|assumption]. unfold upper_case. destruct (andb _ _) eqn:E; lia.
Qed.
