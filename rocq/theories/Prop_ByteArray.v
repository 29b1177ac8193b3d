(** Properties C08, C09: byte arrays with provenance. *)
From Verif Require Import Base BaseLemmas Model_ByteArray Spec_ByteArray Proofs_ByteArray.
Local Open Scope Z_scope.

(** C08: every history of operations on byte arrays has, on the data, exactly the effect of the same
    history on plain byte strings (including which splits are rejected). *)
Theorem C08_history_refines_byte_strings : forall h ops, Forall split_ok ops ->
  map ba_data (fold_left (impl_step h) ops []) = fold_left (spec_step h) ops [].
Proof. exact (fun h ops H => history_refines h ops H []). Qed.
Print Assumptions C08_history_refines_byte_strings.

Theorem C08_concat_data : forall a b name,
  ba_data (ba_concat_named a b name) = ba_data a ++ ba_data b.
Proof. exact concat_named_data. Qed.
Print Assumptions C08_concat_data.

Theorem C08_split : forall a i, 0 <= i ->
  (i <= zlen (ba_data a) -> exists l r, ba_split a i = Ok (l, r) /\
     ba_data l = firstn (Z.to_nat i) (ba_data a) /\ ba_data r = skipn (Z.to_nat i) (ba_data a)) /\
  (zlen (ba_data a) < i -> ba_split a i = Err (EInvalidSplit i (zlen (ba_data a)))).
Proof. exact split_ok_iff. Qed.
Print Assumptions C08_split.

Theorem C08_concat_after_split : forall a i l r, 0 <= i -> ba_split a i = Ok (l, r) ->
  ba_eqb (ba_concat l r) a = true.
Proof. exact split_concat. Qed.
Print Assumptions C08_concat_after_split.

Theorem C08_equality_is_data_equality : forall a b, ba_eqb a b = true <-> ba_data a = ba_data b.
Proof. exact ba_eqb_spec. Qed.
Print Assumptions C08_equality_is_data_equality.

Theorem C08_from_parts_data : forall ps, ba_data (ba_from_parts ps) = concat (map ba_data ps).
Proof. exact from_parts_data. Qed.
Print Assumptions C08_from_parts_data.

Theorem C08_concat_assoc_plain : forall a b c,
  ba_function a = FPlain -> ba_function b = FPlain -> ba_function c = FPlain ->
  ba_concat (ba_concat a b) c = ba_concat a (ba_concat b c).
Proof. exact concat_assoc_plain. Qed.
Print Assumptions C08_concat_assoc_plain.

(** A hash placeholder for examples: not a real hash, just some function of the data. *)
Definition toy_hash (f : func) (d : list Z) : list Z := [zlen d; 7; 9].

Example C08_nonvacuous :
  let ops := [ONew None [1; 2]; OApply 0 FSha256; ONew (Some "x"%string) [5; 6]; OConcat 2 1 None; OSplit 3 3; OParts [4; 0; 5]%nat] in
  Forall split_ok ops /\
  map ba_data (fold_left (impl_step toy_hash) ops []) =
   [[1;2]; [2;7;9]; [5;6]; [5;6;2;7;9]; [5;6;2]; [7;9]; [5;6;2;1;2;7;9]].
Proof. cbv zeta. split; [repeat constructor; cbn; lia|vm_compute; reflexivity]. Qed.

(** C09: provenance stays truthful through every history without signing operations. *)
Theorem C09_provenance_truthful : forall h ops, Forall split_ok ops -> Forall no_signing ops ->
  Forall (truthful h) (fold_left (impl_step h) ops []).
Proof. exact history_truthful. Qed.
Print Assumptions C09_provenance_truthful.

(** C09: with signing operations it is false: splitting a signature distributes the signed message's
    provenance as if it were the signature's parts. *)
Theorem C09_provenance_truthful_with_signing_refuted : exists h ops, Forall split_ok ops /\
  ~ Forall (truthful h) (fold_left (impl_step h) ops []).
Proof.
  exists toy_hash, [ONew None [1; 2]; OApply 0 FEcdsaSign; OSplit 1 1]. split; [repeat constructor; cbn; lia|].
  intros H. vm_compute in H.
  do 2 (inversion H as [|? ? _ H']; subst; clear H; rename H' into H).
  inversion H as [|? ? H1 _]; subst. inversion H1 as [|? ? ? ? Hn _]; subst. vm_compute in Hn. discriminate Hn.
Qed.
Print Assumptions C09_provenance_truthful_with_signing_refuted.

Example C09_nonvacuous :
  let ops := [ONew None [1; 2]; OApply 0 FSha256; ONew None [5; 6]; OConcat 2 1 None; OSplit 3 3; OSplit 3 2] in
  Forall split_ok ops /\ Forall no_signing ops /\
  nth_error (fold_left (impl_step toy_hash) ops []) 4 =
   Some (BA [5; 6; 2] None FPlain (Some [BA [5; 6] None FPlain None; BA [2] None FUnexpectedSplit None])) /\
  nth_error (fold_left (impl_step toy_hash) ops []) 7 =
   Some (BA [2; 7; 9] None FPlain (Some [BA [2; 7; 9] None FSha256 (Some [BA [1; 2] None FPlain None])])).
Proof. cbv zeta. repeat split; try (repeat constructor; cbn; lia); vm_compute; reflexivity. Qed.
