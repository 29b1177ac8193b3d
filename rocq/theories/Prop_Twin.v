(** C49: annotations (names, provenance, source tags) never change bytes or outcomes. *)
From Verif Require Import Base BaseLemmas Model_Encoding Model_ByteArray Model_Opcode Model_Script Model_Code Model_Address Model_Destination Model_Preimage Model_TxBuilder Spec_TxBuilder Spec_Twin Proofs_Twin Prop_Preimage Prop_TxBuilder.
Local Open Scope string_scope.
Local Open Scope list_scope.
Local Open Scope Z_scope.

Theorem C49_script_bytes s s' : twin_script s s' -> orel twin_array (script_ser_ops s) (script_ser_ops s').
Proof. exact (script_ser_twin s s'). Qed.
Theorem C49_wire :
  blind bytearray_codec twin_array /\ (forall n, 0 <= n -> blind (fixed_codec n) twin_array) /\ blind script_codec twin_script /\
  blind outpoint_codec twin_outpoint /\ blind input_codec twin_input /\ blind output_codec twin_output /\
  (forall si so, blind (unhashed_tx_codec si so) twin_tx) /\ blind tx_codec twin_hashed /\ blind preimage_codec twin_preimage /\
  (forall A (c : codec A) T k, blind c T -> blind (vec_codec k c) (Forall2 T)).
Proof.
  split; [apply blind_weak, bytearray_blind|]. split; [intros n Hn; now apply blind_weak, fixed_blind|]. split; [apply blind_weak, script_blind|].
  split; [apply blind_weak, outpoint_blind|]. split; [apply blind_weak, input_blind|]. split; [apply blind_weak, output_blind|].
  split; [intros; apply blind_weak, unhashed_blind|]. split; [apply blind_weak, tx_blind|]. split; [apply blind_weak, preimage_blind|].
  intros A c T k B. now apply blind_weak, vec_blind, blind_strong.
Qed.
Theorem C49_parse x y : twin_array x y -> bytes_ok (ba_data x) ->
  orel twin_script (c_deser script_codec x) (c_deser script_codec y) /\
  orel (Forall2 twin_op) (deserialize_ops_ba x) (deserialize_ops_ba y) /\
  (forall si so, orel twin_tx (c_deser (unhashed_tx_codec si so) x) (c_deser (unhashed_tx_codec si so) y)) /\
  orel twin_preimage (c_deser preimage_codec x) (c_deser preimage_codec y).
Proof.
  intros E Hb. assert (RB x y) as R by (split; assumption). split; [apply c_deser_twin; [apply script_blind|exact R]|]. split; [apply deser_ops_twin, R|].
  split; [intros; apply c_deser_twin; [apply unhashed_blind|exact R]|apply c_deser_twin; [apply preimage_blind|exact R]].
Qed.
Theorem C49_txid sha si so t t' : twin_tx t t' -> orel twin_hashed (tx_hashed sha si so t) (tx_hashed sha si so t').
Proof. exact (hashed_twin sha si so t t'). Qed.
Theorem C49_script_code s s' : twin_script s s' ->
  twin_script (to_script_code_first s) (to_script_code_first s') /\ forall n, orel twin_script (to_script_code s n) (to_script_code s' n).
Proof. intros H. split; [now apply code_first_twin|intros n; now apply script_code_twin]. Qed.
Theorem C49_preimages sha t t' flags : twin_tx t t' -> orel (Forall2 (Forall2 twin_preimage)) (tx_preimages sha t flags) (tx_preimages sha t' flags).
Proof. exact (tx_preimages_twin sha t t' flags). Qed.
Theorem C49_destination p s s' : twin_script s s' ->
  orel twin_destination (script_destination p s) (script_destination p s') /\ script_p2pkh_spend s = script_p2pkh_spend s'.
Proof. intros H. split; [now apply destination_twin|now apply spend_twin]. Qed.

Section B.
Context {sigs : Z -> Type} (twin_sig : forall ty, sigs ty -> sigs ty -> Prop).
Lemma history_twin b b' : twin_history twin_sig b b' -> twin_builder twin_sig b b'.
Proof.
  induction 1 as [v l f|t t' H|b b' f _ IH|b b' i i' l l' s s' _ IH Hi Hl Hs|b b' o o' _ IH Ho|b b' s s' _ IH Hs|b b' lo up p s s' _ IH Hs].
  - apply new_twin.
  - now apply from_tx_twin.
  - destruct IH as (B1 & B2 & B3 & B4 & B5). unfold twin_builder. cbn. auto.
  - now apply add_input_twin.
  - now apply add_builder_output_twin.
  - apply add_builder_output_twin; [exact IH|]. cbn [twin_builder_output]. auto.
  - apply add_builder_output_twin; [exact IH|]. cbn [twin_builder_output]. auto.
Qed.
Lemma apply_ops_twin l l' : Forall2 (twin_sign_op twin_sig) l l' -> forall u u', twin_unsigned twin_sig u u' ->
  orel (twin_unsigned twin_sig) (apply_ops u l) (apply_ops u' l').
Proof.
  induction 1 as [|o o' l l' H _ IH]; intros u u' U; [exact U|]. cbn [apply_ops]. eapply orel_bind; [|intros a b Hab; apply IH; exact Hab].
  destruct H as [i sg sg' H|i ty p p' sh k k' v w H Hv]; cbn [apply_op]; [now apply sign_dyn_twin|now apply sign_signatory_twin].
Qed.
(** The builders' outcome: same errors, same panics, same estimated size, outputs and preimages. *)
Theorem C49_build sha release b b' : twin_history twin_sig b b' ->
  orel (twin_unsigned twin_sig) (build sha release b) (build sha release b') /\
  orel (twin_unsigned twin_sig) (build_without_estimation sha b) (build_without_estimation sha b').
Proof. intros H%history_twin. split; [now apply (build_twin twin_sig)|now apply (build_we_twin twin_sig)]. Qed.
Theorem C49_sign_complete u u' l l' : twin_unsigned twin_sig u u' -> Forall2 (twin_sign_op twin_sig) l l' ->
  orel (fun v v' => twin_tx (partial_tx v) (partial_tx v') /\ orel twin_tx (complete_tx v) (complete_tx v')) (apply_ops u l) (apply_ops u' l').
Proof.
  intros U L. eapply orel_impl; [apply apply_ops_twin; eassumption|]. intros a b H. split; [now apply (partial_twin twin_sig)|now apply (complete_twin twin_sig)].
Qed.
(** End to end: the same wallet session with annotations added, removed or changed gives the same transaction bytes and
    the same transaction id, or fails alike. *)
Theorem C49_session sha release b b' l l' : twin_history twin_sig b b' -> Forall2 (twin_sign_op twin_sig) l l' ->
  orel (fun t t' => ba_data (tx_raw t) = ba_data (tx_raw t') /\ ba_data (tx_hash t) = ba_data (tx_hash t'))
    (finish sha release b l) (finish sha release b' l').
Proof.
  intros H%history_twin L. unfold finish. eapply orel_bind; [apply build_twin, H|]. intros u u' U. eapply orel_bind; [apply apply_ops_twin; eassumption|]. intros v v' V.
  eapply orel_bind; [apply (complete_twin twin_sig), V|]. intros t t' T. eapply orel_impl; [apply hashed_twin, T|]. intros x y (_ & X & Y). split; [exact Y|exact X].
Qed.
End B.

(** The library's own P2PKH signatory ignores annotations of the signature. *)
Theorem C49_p2pkh_signatory ty sigs (to_ba : sigs ty -> barray) (of_ba : barray -> sigs ty) g (twin_sig : forall ty, sigs ty -> sigs ty -> Prop) :
  (forall v w, twin_sig ty v w -> twin_array (to_ba v) (to_ba w)) -> (forall a, twin_sig ty (of_ba a) (of_ba a)) ->
  twin_signatory twin_sig (p2pkh_signatory_of sigs ty to_ba of_ba g) (p2pkh_signatory_of sigs ty to_ba of_ba g).
Proof.
  intros H K. unfold p2pkh_signatory_of. constructor; [apply K|]. cbn [twin_kind]. split; [reflexivity|]. intros p p' est v w lock lock' outs outs' _ Hv _ _. cbn [orel]. unfold p2pkh_build_script.
  constructor; [|constructor; [|constructor]]; unfold twin_tagged; cbn; [|split; reflexivity]. split; [|reflexivity]. apply concat_twin; [now apply H|reflexivity].
Qed.

(** Non-vacuity: a session whose scripts, outpoint and signature all carry names, against one without. *)
Definition ex_name_script (s : script) : script := map (fun t => tagged_named t "item") s.
Definition ex_named (a : barray) : barray := ba_named a "label".
Definition ex_twin_sig : forall ty, ex_sigs ty -> ex_sigs ty -> Prop := fun _ => twin_array.
Definition ex_in_named (n v : Z) : unsigned_tx_input := UnsignedTxInput (TxOutpoint (ex_named (ba_unnamed (repeat n 32))) n) (0xffffffff - n) v.
Definition ex_session (i : unsigned_tx_input) (l o : script) : tx_builder ex_sigs :=
  add_leftover_output (add_output (fst (add_input (builder_new ex_sigs 2 77) i l (ex_signatory 2))) (TxOutput 20000 o)) l.
Example C49_nonvacuous :
  let o := [tagged_from_op (OCode OP_RETURN); tagged_from_op (OPushArray (ba_unnamed [1;2;3]) true)] in
  let o' := [tagged_from_op (OCode OP_RETURN); tagged_from_op (OPushArray (ba_new "data" [1;2;3]) true)] in
  let s := [SignInput 0 (Any (sigs:=ex_sigs) 0 (ba_unnamed (repeat 5 64)))] in
  let s' := [SignInput 0 (Any (sigs:=ex_sigs) 0 (ba_new "sig" (repeat 5 64)))] in
  twin_history ex_twin_sig (ex_session (ex_in 1 60000) ex_lock o) (ex_session (ex_in_named 1 60000) (ex_name_script ex_lock) o') /\
  Forall2 (twin_sign_op ex_twin_sig) s s' /\
  ex_in 1 60000 <> ex_in_named 1 60000 /\ o <> o' /\ ex_name_script ex_lock <> ex_lock /\
  exists t, finish ex_sha false (ex_session (ex_in 1 60000) ex_lock o) s = Ok t /\ zlen (ba_data (tx_raw t)) = 177.
Proof.
  cbv zeta.
  assert (twin_script ex_lock (ex_name_script ex_lock)) as L by (repeat constructor).
  split.
  { unfold ex_session. apply th_add_leftover; [|exact L]. apply th_add_output; [|split; [reflexivity|repeat constructor]].
    apply th_add_input; [apply th_new| |exact L|].
    - split; [split; reflexivity|split; reflexivity].
    - apply C49_p2pkh_signatory; [intros v w H; exact H|intros a; reflexivity]. }
  split; [constructor; [apply TwinSign; constructor; reflexivity|constructor]|].
  split; [discriminate|]. split; [discriminate|]. split; [discriminate|].
  eexists. split; [vm_compute; reflexivity|]. vm_compute. reflexivity.
Qed.
Print Assumptions C49_session.
