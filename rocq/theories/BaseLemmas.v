(** Lemmas about [Base]. *)
From Verif Require Import Base.
From Coq Require Import ZifyBool ZifyNat.
Local Open Scope Z_scope.

Ltac zdm := Z.to_euclidean_division_equations; lia.

Lemma zlen_app {A} (a b : list A) : zlen (a ++ b) = zlen a + zlen b.
Proof. unfold zlen. rewrite app_length. lia. Qed.
Lemma zlen_cons {A} (x : A) l : zlen (x :: l) = 1 + zlen l.
Proof. unfold zlen. simpl length. lia. Qed.
Lemma zlen_nil {A} : zlen (@nil A) = 0.
Proof. reflexivity. Qed.
Lemma zlen_nonneg {A} (l : list A) : 0 <= zlen l.
Proof. unfold zlen. lia. Qed.
Lemma zlen_0 {A} (l : list A) : zlen l = 0 -> l = [].
Proof. destruct l; [reflexivity|]. rewrite zlen_cons. pose proof (zlen_nonneg l). lia. Qed.

Lemma le_bytes_length n v : length (le_bytes n v) = n.
Proof. revert v; induction n as [|n IH]; intros v; simpl; [reflexivity|]. now rewrite IH. Qed.
Lemma le_bytes_zlen n v : zlen (le_bytes n v) = Z.of_nat n.
Proof. unfold zlen. now rewrite le_bytes_length. Qed.

Lemma le_bytes_ok n v : bytes_ok (le_bytes n v).
Proof.
  revert v; induction n as [|n IH]; intros v; simpl; constructor.
  - unfold byte_ok. apply Z.mod_pos_bound. lia.
  - apply IH.
Qed.

Lemma bytes_ok_app a b : bytes_ok (a ++ b) <-> bytes_ok a /\ bytes_ok b.
Proof. unfold bytes_ok. apply Forall_app. Qed.
Lemma bytes_ok_cons b l : bytes_ok (b :: l) <-> byte_ok b /\ bytes_ok l.
Proof. unfold bytes_ok. split; [intros H; inversion H; auto | intros []; constructor; auto]. Qed.
Lemma bytes_ok_nil : bytes_ok [].
Proof. constructor. Qed.
Lemma bytes_ok_firstn n l : bytes_ok l -> bytes_ok (firstn n l).
Proof. unfold bytes_ok. intros H. rewrite <- (firstn_skipn n l) in H. apply Forall_app in H. tauto. Qed.
Lemma bytes_ok_skipn n l : bytes_ok l -> bytes_ok (skipn n l).
Proof. unfold bytes_ok. intros H. rewrite <- (firstn_skipn n l) in H. apply Forall_app in H. tauto. Qed.
Lemma bytes_ok_rev l : bytes_ok l -> bytes_ok (rev l).
Proof. unfold bytes_ok. apply Forall_rev. Qed.

Lemma pow256_S n : 2 ^ (8 * Z.of_nat (S n)) = 256 * 2 ^ (8 * Z.of_nat n).
Proof.
  replace (8 * Z.of_nat (S n)) with (8 + 8 * Z.of_nat n) by lia.
  rewrite Z.pow_add_r by lia. reflexivity.
Qed.

Lemma le_value_bound l : bytes_ok l -> 0 <= le_value l < 2 ^ (8 * zlen l).
Proof.
  intros H; induction l as [|b t IH].
  - cbn. lia.
  - apply bytes_ok_cons in H. destruct H as [Hb Ht]. specialize (IH Ht).
    unfold byte_ok in Hb. unfold zlen. simpl length. rewrite pow256_S. fold (zlen t).
    cbn [le_value]. unfold zlen in IH. unfold zlen. lia.
Qed.

Lemma le_value_app a b : le_value (a ++ b) = le_value a + 2 ^ (8 * zlen a) * le_value b.
Proof.
  induction a as [|x a IH].
  - cbn [le_value app]. change (2 ^ (8 * zlen (@nil Z))) with 1. lia.
  - cbn [le_value app]. rewrite IH. unfold zlen. simpl length. rewrite pow256_S. lia.
Qed.

Lemma le_value_bytes n v : le_value (le_bytes n v) = v mod 2 ^ (8 * Z.of_nat n).
Proof.
  revert v; induction n as [|n IH]; intros v.
  - cbn. now rewrite Z.mod_1_r.
  - cbn [le_bytes le_value]. rewrite IH, pow256_S.
    assert (0 < 2 ^ (8 * Z.of_nat n)) by (apply Z.pow_pos_nonneg; lia).
    rewrite Z.rem_mul_r by lia. lia.
Qed.

Lemma le_value_bytes_small n v : 0 <= v < 2 ^ (8 * Z.of_nat n) -> le_value (le_bytes n v) = v.
Proof. intros H. rewrite le_value_bytes. now apply Z.mod_small. Qed.

Lemma le_bytes_value l : bytes_ok l -> le_bytes (length l) (le_value l) = l.
Proof.
  intros H; induction l as [|b t IH]; [reflexivity|].
  apply bytes_ok_cons in H. destruct H as [Hb Ht]. unfold byte_ok in Hb.
  cbn [length le_bytes le_value].
  replace (b + 256 * le_value t) with (b + le_value t * 256) by lia.
  rewrite Z.mod_add, Z.div_add by lia.
  rewrite Z.mod_small, Z.div_small by lia. f_equal. simpl. now apply IH.
Qed.

Lemma le_value_inj a b : bytes_ok a -> bytes_ok b -> length a = length b ->
  le_value a = le_value b -> a = b.
Proof.
  intros Ha Hb Hl Hv. rewrite <- (le_bytes_value a Ha), <- (le_bytes_value b Hb).
  now rewrite Hl, Hv.
Qed.

Lemma in_all_bytes b : byte_ok b -> In b all_bytes.
Proof.
  intros H. unfold all_bytes. apply in_map_iff. exists (Z.to_nat b).
  unfold byte_ok in H. split; [lia|]. apply in_seq. lia.
Qed.

Lemma byte_sweep (f : Z -> bool) : forallb f all_bytes = true -> forall b, byte_ok b -> f b = true.
Proof. intros H b Hb. eapply forallb_forall in H; [exact H|]. now apply in_all_bytes. Qed.

Lemma byte_sweep2 (f : Z -> Z -> bool) :
  forallb (fun a => forallb (f a) all_bytes) all_bytes = true ->
  forall a b, byte_ok a -> byte_ok b -> f a b = true.
Proof. intros H a b Ha Hb. apply (byte_sweep (f a)); [|exact Hb]. now apply (byte_sweep (fun a => forallb (f a) all_bytes)). Qed.

Lemma upd_length {A} (l : list A) i x : length (upd l i x) = length l.
Proof. revert i; induction l as [|h t IH]; intros [|i]; simpl; auto. Qed.

Lemma upd_app_mid {A} (a : list A) h t x : upd (a ++ h :: t) (length a) x = a ++ x :: t.
Proof. induction a as [|y a IH]; simpl; [reflexivity|]. now rewrite IH. Qed.

Lemma firstn_app_exact {A} (a b : list A) : firstn (length a) (a ++ b) = a.
Proof. rewrite firstn_app, Nat.sub_diag, firstn_all. cbn. apply app_nil_r. Qed.
Lemma skipn_app_exact {A} (a b : list A) : skipn (length a) (a ++ b) = b.
Proof. rewrite skipn_app, Nat.sub_diag, skipn_all. reflexivity. Qed.

Lemma obind_ok {A B} (o : outcome A) (f : A -> outcome B) b :
  obind o f = Ok b <-> exists a, o = Ok a /\ f a = Ok b.
Proof.
  split.
  - destruct o as [a|e|]; cbn; intros H; try discriminate. eauto.
  - intros (a & -> & H). exact H.
Qed.

Lemma list_snoc {A} (l : list A) : l = [] \/ exists i x, l = i ++ [x].
Proof.
  destruct l as [|h t]; [now left|right].
  destruct (exists_last (l := h :: t)) as (i & x & E); [discriminate|]. eauto.
Qed.
