(** Lemmas about the errors of the CashAddr reader. *)
From Verif Require Import Base BaseLemmas Model_ByteArray Model_Code Model_Json Spec_Json Model_Address Spec_Address Proofs_Address Proofs_Address2 Spec_Errors.
Local Open Scope Z_scope.

Lemma payload_letters_iff s p c : payload_letters s p c <-> split_default (map lower s) = (p, c).
Proof.
  split.
  - intros (low & H1 & H2 & H3). apply same_letters_lower in H1. rewrite (lower_map_id low) in H1 by assumption. rewrite H1. now apply split_default_iff.
  - intros H. exists (map lower s). split; [apply same_letters_lower; now rewrite (lower_map_id (map lower s)) by apply lower_map_low|].
    split; [apply lower_map_low|]. now apply split_default_iff.
Qed.
Lemma b32_each c : (forall j y, nth_error c j = Some y -> exists s, b32_char s y) <-> exists l, Forall2 b32_char l c.
Proof.
  split.
  - induction c as [|x c IH]; intros H; [exists []; constructor|]. destruct (H O x eq_refl) as (s & Hs). destruct IH as (l & Hl); [intros j y Hj; exact (H (S j) y Hj)|].
    exists (s :: l). constructor; assumption.
  - intros (l & H). induction H as [|s x l c Hs _ IH]; intros [|j] y Hj; cbn in Hj; try discriminate; [injection Hj as <-; eauto|eauto].
Qed.
Lemma nth_firstn {A} (l : list A) k j : (j < k)%nat -> nth_error (firstn k l) j = nth_error l j.
Proof. revert k j. induction l as [|x l IH]; intros [|k] [|j] H; try lia; cbn; try reflexivity. apply IH. lia. Qed.
Lemma first_bad_iff c k x : first_bad c k x <-> first_foreign c k x.
Proof.
  assert ((exists l, Forall2 b32_char l (firstn k c)) <-> forall j y, (j < k)%nat -> nth_error c j = Some y -> exists s, b32_char s y) as E.
  { rewrite <- b32_each. split.
    - intros H j y Hj Hy. apply (H j). now rewrite nth_firstn.
    - intros H j y Hy. assert (j < k)%nat as Hj. { assert (j < length (firstn k c))%nat as L by (apply nth_error_Some; congruence). rewrite firstn_length in L. lia. }
      rewrite nth_firstn in Hy by exact Hj. eauto. }
  unfold first_bad, first_foreign. now rewrite E.
Qed.
Lemma first_foreign_none c k x : first_foreign c k x -> forall l, ~ Forall2 b32_char l c.
Proof. intros (H & N & _) l F. destruct (proj2 (b32_each c) (ex_intro _ l F) k x H) as (s & Hs). exact (N s Hs). Qed.
Lemma first_foreign_fun c k x k' x' : first_foreign c k x -> first_foreign c k' x' -> k = k' /\ x = x'.
Proof.
  intros (A & B & C) (A' & B' & C'). assert (k = k') as <-; [|split; congruence].
  destruct (Nat.lt_trichotomy k k') as [H|[H|H]]; [exfalso|exact H|exfalso].
  - destruct (C' _ _ H A) as (s & Hs). exact (B s Hs).
  - destruct (C _ _ H A') as (s & Hs). exact (B' s Hs).
Qed.
Definition parts_cause (p c : list Z) (e : cash_addr_err) : Prop :=
  match e with
  | AInvalidBase32Letter i x => exists k, i = Z.of_nat k /\ first_foreign c k x
  | AInvalidChecksum => exists syms, Forall2 b32_char syms c /\ remainder p syms <> 1
  | AInvalidAddressType b => exists syms h rest, Forall2 b32_char syms c /\ remainder p syms = 1 /\ (length syms = 42 \/ length syms = 43)%nat /\
      bitstring 5 syms = bitstring 8 (b :: h) ++ rest /\ length h = 20%nat /\ bytes_ok h /\ byte_ok b /\ b <> 0 /\ b <> 8
  end.
Lemma from_parts_err s e : from_cash_addr s = Err e -> exists x, e = EInvalidCashAddr x /\ address_cause s x.
Proof.
  pose proof (parts_ok s) as H. destruct (split_default (map lower s)) as [p c] eqn:E. destruct H as (H1 & H2 & H3).
  apply payload_letters_iff in E. unfold from_cash_addr. change (prefix_kind_str prefix_default) with (text "bitcoincash"). unfold address_cause.
  destruct (b32_dec c) as [(syms & Hs)|Hn].
  - destruct (Z.eq_dec (remainder p syms) 1) as [Hr|Hr].
    + destruct (H1 syms Hs Hr) as (r & Hp & Er). rewrite Er. destruct Hp as [(_ & _ & ->)|(Hl & b & h & rest & Hb & Hh & Hok & Hbb & ->)]; [discriminate|].
      assert (fixed_from_byte_array 20 (ba_unnamed h) = Ok (ba_unnamed h)) as Ef by (unfold fixed_from_byte_array, ba_len, ba_unnamed, zlen; cbn [ba_data]; rewrite Hh; reflexivity).
      rewrite app_assoc in Hb. destruct (Z.eqb_spec b 0) as [->|N0]; [cbn [obind]; rewrite Ef; discriminate|]. destruct (Z.eqb_spec b 8) as [->|N8]; [cbn [obind]; rewrite Ef; discriminate|].
      cbn [obind]. intros X. injection X as <-. exists (AInvalidAddressType b). split; [reflexivity|]. exists p, c. split; [exact E|]. exists syms, h, rest. auto 10.
    + rewrite (H2 syms Hs Hr). cbn [obind]. intros X. injection X as <-. exists AInvalidChecksum. split; [reflexivity|]. exists p, c. split; [exact E|]. eauto.
  - destruct (H3 Hn) as (k & x & Hk & E1). rewrite E1. cbn [obind]. intros X. injection X as <-. exists (AInvalidBase32Letter (Z.of_nat k) x). split; [reflexivity|]. exists p, c. split; [exact E|]. exists k. split; [reflexivity|now apply first_bad_iff].
Qed.
Lemma address_cause_err s x : address_cause s x -> from_cash_addr s = Err (EInvalidCashAddr x).
Proof.
  intros (p & c & E & Hx). apply payload_letters_iff in E. pose proof (parts_ok s) as H. rewrite E in H. destruct H as (H1 & H2 & H3).
  unfold from_cash_addr. change (prefix_kind_str prefix_default) with (text "bitcoincash"). destruct x as [|i x|b].
  - destruct Hx as (sy & F & N). now rewrite (H2 sy F N).
  - destruct Hx as (k & -> & Hk). destruct (H3 (first_foreign_none _ _ _ Hk)) as (k' & x' & Hk' & E1). apply first_bad_iff in Hk'. destruct (first_foreign_fun _ _ _ _ _ Hk Hk') as [-> ->]. now rewrite E1.
  - destruct Hx as (sy & h & rest & F & R & L & B & Lh & Oh & Ob & N0 & N8). destruct (H1 sy F R) as (r & Hp & Er). rewrite Er. destruct Hp as [(L1 & L2 & _)|(_ & b' & h' & rest' & B' & Lh' & Oh' & Ob' & ->)]; [lia|].
    rewrite app_assoc in B'. destruct (bits8_app_fun sy b h rest b' h' rest') as (<- & _ & _); try assumption.
    apply Z.eqb_neq in N0, N8. now rewrite N0, N8.
Qed.
