(** C59: the texts scripts, numbers and hashes are displayed as. *)
From Coq Require Import Lia.
From Verif Require Import Base BaseLemmas Model_ByteArray Model_Opcode Model_Script Model_Address Model_Hash Model_Integer Model_Text Spec_Hash Spec_Script Spec_Text Prop_Hash Proofs_Wire Proofs_Text Proofs_Text2.
Local Open Scope string_scope.
Local Open Scope list_scope.
Local Open Scope Z_scope.

(** Numbers are displayed in decimal. *)
Theorem C59_number : forall v s, int_display v = s <-> decimal v s.
Proof. exact int_display_iff. Qed.
Print Assumptions C59_number.

(** The text of a script is, for every op, its word and a space. *)
Theorem C59_script_text : forall s t, Forall printable (map t_op s) -> (script_display s = t <-> script_text (map t_op s) t).
Proof. exact script_display_iff. Qed.
Print Assumptions C59_script_text.

(** Equal texts belong to the same ops, up to names and to how arrays are pushed. *)
Theorem C59_text_determines_ops : forall s s', Forall printable (map t_op s) -> Forall printable (map t_op s') ->
  script_display s = script_display s' -> Forall2 same_instr (map t_op s) (map t_op s').
Proof. exact script_display_inj. Qed.
Print Assumptions C59_text_determines_ops.

(** So they stand for the same instructions. *)
Theorem C59_text_determines_meaning : forall s s', Forall printable (map t_op s) -> Forall printable (map t_op s') ->
  script_display s = script_display s' -> forall is, Forall2 means (map t_op s) is <-> Forall2 means (map t_op s') is.
Proof.
  assert (forall l l', Forall2 same_instr l l' -> forall is, Forall2 means l is -> Forall2 means l' is) as K.
  { induction 1 as [|o o' l l' H _ IH]; intros is F; inversion F; subst; constructor; [eapply same_instr_means; eassumption|now apply IH]. }
  assert (forall l l', Forall2 same_instr l l' -> Forall2 same_instr l' l) as Sy.
  { induction 1; constructor; [now apply same_instr_sym|assumption]. }
  intros s s' H H' E is. pose proof (script_display_inj s s' H H' E) as F. split; apply K; [exact F|now apply Sy].
Qed.
Print Assumptions C59_text_determines_meaning.

(** The debugging texts of ops tell the ops apart up to names, so also the bytes they serialise to. *)
Theorem C59_debug_determines : forall ops ops', Forall printable ops -> Forall printable ops' -> map op_debug ops = map op_debug ops' ->
  Forall2 same_op ops ops' /\ (forall x, serialize_ops ops = Ok x -> exists y, serialize_ops ops' = Ok y /\ ba_data y = ba_data x).
Proof.
  intros ops ops' H H' E. assert (Forall2 same_op ops ops') as F.
  { revert ops' H' E. induction ops as [|o ops IH]; intros [|o' ops'] H' E; try discriminate; [constructor|]. cbn [map] in E.
    injection E as E1 E2. inversion H; inversion H'; subst. constructor; [now apply op_debug_inj|now apply IH]. }
  split; [exact F|]. intros x S. now apply (same_ops_ser ops ops' x).
Qed.
Print Assumptions C59_debug_determines.

(** The texts of results of integer arithmetic tell the results apart, errors included. *)
Theorem C59_result_text : forall r r', integer_result r -> integer_result r' -> ires_display r = ires_display r' -> r = r'.
Proof. exact result_inj. Qed.
Print Assumptions C59_result_text.

(** A failed operation is shown as it was written, except subtraction, multiplication and right shift. *)
Theorem C59_error_shows_operation : forall e, integer_error e -> (shows_operation e (integer_error_display e) <-> ~ wrong_sign e).
Proof. exact shows. Qed.
Print Assumptions C59_error_shows_operation.

(** Hashes: the debugging text gives the kind and the bytes. *)
Theorem C59_hash_debug : forall n n' h h', In n ["Sha1"; "Ripemd160"; "Sha256"; "Sha256d"; "Hash160"] -> In n' ["Sha1"; "Ripemd160"; "Sha256"; "Sha256d"; "Hash160"] ->
  bytes_ok (ba_data h) -> bytes_ok (ba_data h') -> hash_debug n h = hash_debug n' h' -> n = n' /\ ba_data h = ba_data h'.
Proof. exact hash_debug_inj. Qed.
Print Assumptions C59_hash_debug.

(** Byte arrays and public keys are displayed as their hex text, keys when debugging as [Pubkey(hex)]. *)
Theorem C59_bytes_text : forall d t, bytes_ok d -> (array_display (ba_unnamed d) = t <-> hex_of d t) /\ (pubkey_display d = t <-> hex_of d t) /\
  (pubkey_debug d = t <-> exists h, hex_of d h /\ t = text "Pubkey(" ++ h ++ text ")").
Proof.
  intros d t H. assert (K : forall t, hex_encode d = t <-> hex_of d t).
  { intros u. split; [intros <-; split; [now apply hex_encode_text|now apply hex_encode_lower]|]. intros (A & B). symmetry. now apply lower_text_unique. }
  split; [apply K|]. split; [apply K|]. unfold pubkey_debug. split.
  - intros <-. exists (hex_encode d). split; [now apply K|reflexivity].
  - intros (h & A & ->). apply K in A. now rewrite A.
Qed.
Print Assumptions C59_bytes_text.

(** The displayed text does not determine the bytes, nor do the bytes determine the text. *)
Theorem C59_text_bytes_refuted :
  (exists s s' b b', script_display s = script_display s' /\ script_ser_ops s = Ok b /\ script_ser_ops s' = Ok b' /\ ba_data b <> ba_data b') /\
  (exists s s' b b', script_display s <> script_display s' /\ script_ser_ops s = Ok b /\ script_ser_ops s' = Ok b' /\ ba_data b = ba_data b').
Proof.
  split.
  - exists (script_from_ops [OPushArray (ba_unnamed [5]) true]), (script_from_ops [OPushArray (ba_unnamed [5]) false]). eexists. eexists.
    split; [reflexivity|]. split; [vm_compute; reflexivity|]. split; [vm_compute; reflexivity|]. vm_compute. discriminate.
  - exists (script_from_ops [OPushInt 5]), (script_from_ops [OCode OP_5]). eexists. eexists.
    split; [vm_compute; discriminate|]. split; [vm_compute; reflexivity|]. split; [vm_compute; reflexivity|]. reflexivity.
Qed.
Print Assumptions C59_text_bytes_refuted.

(** A difference that overflows is shown as a sum. *)
Theorem C59_error_operator_refuted : exists e, integer_error e /\ int_sub (Ok (-2147483647)) (Ok 2) = Err e /\ ~ shows_operation e (integer_error_display e) /\
  integer_error_display e = text "Subtraction overflowed: -2147483647 + 2".
Proof.
  exists (ESubOverflow (-2147483647) 2). split; [exact Logic.I|]. split; [vm_compute; reflexivity|]. split; [|vm_compute; reflexivity].
  intros H. exact (proj1 (shows (ESubOverflow (-2147483647) 2) Logic.I) H Logic.I).
Qed.
Print Assumptions C59_error_operator_refuted.

Definition ex_script : script := script_from_ops [OCode OP_DUP; OPushArray (ba_new "h" [0xde; 0xad]) true; OPushBool false; OPushInt (-120); OInvalid 0xbe].
Example C59_nonvacuous : Forall printable (map t_op ex_script) /\ script_display ex_script = text "OP_DUP 0xdead OP_FALSE -120 be "
  /\ map op_debug [OPushArray (ba_new "h" [0xde; 0xad]) true] = [text "PushByteArray{array: hex!(" ++ [34] ++ text "dead" ++ [34] ++ text ").to_vec(), is_minimal: true})"]
  /\ ires_display (int_div (Ok 1) (Ok 0)) = text "(integer error: Division error: 1 / 0)" /\ hash_debug "Sha1" (ba_unnamed [1; 0xab]) = text "Sha1(ab01)".
Proof. split; [repeat constructor; cbn; unfold byte_ok; lia|]. vm_compute. repeat split. Qed.
