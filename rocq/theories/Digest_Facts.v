(* The digest functions of Digest.v satisfy the only facts any theorem asks of a digest: its size and that it is made of
   bytes.  So those hypotheses are met by the digests the real crates compute. *)
From Coq Require Import ZArith List Lia Bool.
From Verif Require Import Base BaseLemmas Digest Spec_Preimage.
Import ListNotations.
Open Scope Z_scope.

Lemma flat_le_len : forall n l, zlen (flat_map (le_bytes n) l) = Z.of_nat n * zlen l.
Proof. induction l as [|x l IH]; cbn [flat_map]. { rewrite zlen_nil; lia. }
  rewrite zlen_app, zlen_cons, IH, le_bytes_zlen. lia. Qed.
Lemma flat_be_len : forall n l, zlen (flat_map (be_bytes n) l) = Z.of_nat n * zlen l.
Proof. induction l as [|x l IH]; cbn [flat_map]. { rewrite zlen_nil; lia. }
  rewrite zlen_app, zlen_cons, IH. unfold be_bytes, zlen at 1. rewrite rev_length, le_bytes_length. lia. Qed.
Lemma flat_le_ok : forall n l, bytes_ok (flat_map (le_bytes n) l).
Proof. induction l as [|x l IH]; cbn [flat_map]. { apply bytes_ok_nil. }
  apply bytes_ok_app. split; [apply le_bytes_ok|exact IH]. Qed.
Lemma flat_be_ok : forall n l, bytes_ok (flat_map (be_bytes n) l).
Proof. induction l as [|x l IH]; cbn [flat_map]. { apply bytes_ok_nil. }
  apply bytes_ok_app. split; [apply bytes_ok_rev, le_bytes_ok|exact IH]. Qed.

Lemma fold_len : forall {A} (f : list Z -> A -> list Z) n l s,
  (forall s a, zlen s = n -> zlen (f s a) = n) -> zlen s = n -> zlen (fold_left f l s) = n.
Proof. intros A f n l. induction l as [|a l IH]; intros s H Hs; cbn [fold_left]; [exact Hs|]. apply IH; auto. Qed.
Lemma sum_words_len : forall a b, zlen a = zlen b -> zlen (sum_words a b) = zlen a.
Proof. intros a b H. unfold sum_words, zlen in *. rewrite map_length, combine_length. lia. Qed.

Lemma sha256_round_len : forall s k, zlen s = 8 -> zlen (sha256_round s k) = 8.
Proof. intros s k H. unfold sha256_round.
  do 8 (destruct s as [|? s]; [exact H|]). destruct s; [reflexivity|exact H]. Qed.
Lemma sha1_round_len : forall s k, zlen s = 5 -> zlen (sha1_round s k) = 5.
Proof. intros s k H. unfold sha1_round.
  do 5 (destruct s as [|? s]; [exact H|]). destruct s; [|exact H]. destruct (sha1_f _ _ _ _). reflexivity. Qed.
Lemma sha256_block_len : forall s b, zlen s = 8 -> zlen (sha256_block s b) = 8.
Proof. intros s b H. unfold sha256_block. rewrite sum_words_len; [exact H|].
  symmetry. rewrite H. apply fold_len; [exact sha256_round_len|exact H]. Qed.
Lemma sha1_block_len : forall s b, zlen s = 5 -> zlen (sha1_block s b) = 5.
Proof. intros s b H. unfold sha1_block. rewrite sum_words_len; [exact H|].
  symmetry. rewrite H. apply fold_len; [exact sha1_round_len|exact H]. Qed.
Lemma rmd_block_len : forall s b, zlen s = 5 -> zlen (rmd_block s b) = 5.
Proof. intros s b H. unfold rmd_block.
  set (l := rmd_line _ _ _ _ _ _). set (r := rmd_line _ _ _ _ _ _). clearbody l r.
  do 5 (destruct s as [|? s]; [exact H|]). destruct s; [|exact H].
  do 5 (destruct l as [|? l]; [exact H|]). destruct l; [|exact H].
  do 5 (destruct r as [|? r]; [exact H|]). destruct r; [reflexivity|exact H]. Qed.

Theorem sha256_is_a_digest : forall m, zlen (sha256 m) = 32 /\ bytes_ok (sha256 m).
Proof. intros m. unfold sha256. cbv zeta. split; [|apply flat_be_ok]. rewrite flat_be_len.
  rewrite (fold_len sha256_block 8); [reflexivity|exact sha256_block_len|reflexivity]. Qed.
Theorem sha1_is_a_digest : forall m, zlen (sha1 m) = 20 /\ bytes_ok (sha1 m).
Proof. intros m. unfold sha1. cbv zeta. split; [|apply flat_be_ok]. rewrite flat_be_len.
  rewrite (fold_len sha1_block 5); [reflexivity|exact sha1_block_len|reflexivity]. Qed.
Theorem ripemd160_is_a_digest : forall m, zlen (ripemd160 m) = 20 /\ bytes_ok (ripemd160 m).
Proof. intros m. unfold ripemd160. cbv zeta. split; [|apply flat_le_ok]. rewrite flat_le_len.
  rewrite (fold_len rmd_block 5); [reflexivity|exact rmd_block_len|reflexivity]. Qed.
Theorem sha256d_is_a_digest : forall m, zlen (sha256d m) = 32 /\ bytes_ok (sha256d m).
Proof. intros m. apply sha256_is_a_digest. Qed.
Theorem hash160_is_a_digest : forall m, zlen (hash160 m) = 20 /\ bytes_ok (hash160 m).
Proof. intros m. apply ripemd160_is_a_digest. Qed.

(* the hypotheses about digests in the statements, met by the real ones: [hash32] (preimages, signatures, transactions, json)
   and the one of the address constructors *)
Theorem real_hash32 : hash32 sha256d.
Proof. intros m. destruct (sha256d_is_a_digest m) as [L B]. split; [|exact B]. unfold zlen in L. lia. Qed.
Theorem real_hash20 : forall m, bytes_ok m -> bytes_ok (hash160 m) /\ zlen (hash160 m) = 20.
Proof. intros m _. destruct (hash160_is_a_digest m) as [L B]. split; assumption. Qed.
