(** Property C65: messages of errors. *)
From Verif Require Import Base BaseLemmas Model_ByteArray Model_Opcode Model_Script Model_Hash Spec_Hash Model_Address Model_Text Spec_Text Proofs_Text Proofs_Text2 Model_ErrorText Spec_ErrorText.
Local Open Scope string_scope.
Local Open Scope list_scope.
Local Open Scope Z_scope.

Lemma int_no c v : c <> 45 -> ~ 48 <= c <= 57 -> ~ In c (int_display v).
Proof. intros H1 H2 I. destruct (decimal_chars _ _ (int_display_ok v)) as [_ F]. rewrite Forall_forall in F. specialize (F _ I). cbv beta in F. lia. Qed.
Lemma int_sep (c : Z) (sep : list Z) a b a' b' (r : list Z) : ((c =? 45) || ((48 <=? c) && (c <=? 57)))%bool = false ->
  int_display a ++ (c :: sep) ++ int_display b ++ r = int_display a' ++ (c :: sep) ++ int_display b' ++ r -> a = a' /\ b = b'.
Proof.
  intros H E. apply orb_false_iff in H. destruct H as [H1 H2]. apply Z.eqb_neq in H1. apply andb_false_iff in H2. rewrite !Z.leb_gt in H2.
  assert (~ 48 <= c <= 57) by lia. cbn [app] in E. apply split_at in E; [|now apply int_no..]. destruct E as [E1 E2]. apply app_inv_head, app_inv_tail in E2. split; now apply int_display_inj.
Qed.
Lemma int_sep' (c : Z) (sep : list Z) a b a' b' : ((c =? 45) || ((48 <=? c) && (c <=? 57)))%bool = false ->
  int_display a ++ (c :: sep) ++ int_display b = int_display a' ++ (c :: sep) ++ int_display b' -> a = a' /\ b = b'.
Proof. intros H E. apply (int_sep c sep a b a' b' []); [exact H|]. now rewrite !app_nil_r. Qed.

(** The message of an error tells which error it is, payload included, with two exceptions. *)
Theorem C65_message_determines : forall other e e', own_error e -> own_error e' -> (error_display other e = error_display other e' <-> same_message e e').
Proof.
  intros other e e' H H'. split.
  2:{ intros [->|[(c & c' & -> & ->)|(i & [[-> ->]|[-> ->]])]]; reflexivity. }
  intros E.
  assert (I : forall x, integer_error x \/ ~ integer_error x) by (intros []; cbn [integer_error]; auto).
  destruct (I e) as [Ie|Ie], (I e') as [Ie'|Ie'].
  - left. apply error_inj; [exact Ie|exact Ie'|]. destruct e; try contradiction; destruct e'; try contradiction; cbn [error_display] in E; apply app_inv_head in E; exact E.
  - exfalso. destruct e; try contradiction; destruct e' as [| | | | | | | | | | | | | | | | | | | | | | | | | | |[]]; try contradiction; try (exfalso; apply Ie'; exact I); cbn [error_display] in E; discriminate E.
  - exfalso. destruct e' ; try contradiction; destruct e as [| | | | | | | | | | | | | | | | | | | | | | | | | | |[]]; try contradiction; try (exfalso; apply Ie; exact I); cbn [error_display] in E; discriminate E.
  - assert (P : forall v r, int_display v <> text "Push too large" ++ r).
    { intros v r Q. destruct (decimal_chars _ _ (int_display_ok v)) as [_ F]. rewrite Q in F. apply Forall_app in F. destruct F as [F _]. inversion F; subst. lia. }
    destruct e as [| | | | | | | | | | | | | | | | | | | | | | | | | | |j]; try contradiction; try (exfalso; apply Ie; exact Logic.I);
    destruct e' as [| | | | | | | | | | | | | | | | | | | | | | | | | | |j']; try contradiction; try (exfalso; apply Ie'; exact Logic.I);
    try (destruct j; contradiction || idtac); try (destruct j'; contradiction || idtac); cbn [own_error] in H, H'; try contradiction; cbn [error_display] in E; try discriminate E; try (left; reflexivity).
    + left. do 2 apply app_inv_head in E. apply int_sep' in E; [destruct E; subst; reflexivity|reflexivity].
    + left. do 2 apply app_inv_head in E. apply int_sep in E; [destruct E; subst; reflexivity|reflexivity].
    + left. do 2 apply app_inv_head in E. apply int_sep' in E; [destruct E; subst; reflexivity|reflexivity].
    + left. do 2 apply app_inv_head in E. f_equal. now apply hex_inj.
    + exfalso. apply app_inv_head in E. symmetry in E. apply (P amount []). now rewrite app_nil_r.
    + right; left. eauto.
    + left. apply app_inv_head in E. apply int_sep' in E; [destruct E; subst; reflexivity|reflexivity].
    + exfalso. apply app_inv_head in E. apply (P amount []). now rewrite app_nil_r.
    + left. apply app_inv_head in E. f_equal. now apply int_display_inj.
    + left. apply app_inv_head, app_inv_tail in E. f_equal. now apply int_display_inj.
    + left. do 2 apply app_inv_head in E. do 2 f_equal. now apply int_display_inj.
    + right; right. do 2 apply app_inv_head in E. apply int_display_inj in E. subst. eauto.
    + right; right. do 2 apply app_inv_head in E. apply int_display_inj in E. subst. eauto.
    + left. do 2 apply app_inv_head in E. do 2 f_equal. now apply int_display_inj.
    + left. do 2 apply app_inv_head in E. do 2 f_equal. now apply error_inj.
Qed.
Print Assumptions C65_message_determines.

Definition nondigit (c : Z) : bool := negb ((48 <=? c) && (c <=? 57)).
Lemma nondigit_ok c : nondigit c = true -> ~ digit c.
Proof. unfold nondigit, digit. intros H. apply negb_true_iff, andb_false_iff in H. rewrite !Z.leb_gt in H. lia. Qed.
Lemma shows_at (x t : list Z) v (after : list Z) s : s = x ++ t ++ int_display v ++ after ->
  (match t with [] => false | _ => nondigit (last t 0) end) = true -> (match after with [] => true | c :: _ => nondigit c end) = true -> shows_number v s.
Proof.
  intros -> H1 H2. exists (x ++ t), (int_display v), after. split; [now rewrite <- app_assoc|]. split; [apply int_display_ok|]. split.
  - intros c r E. destruct t as [|y t]; [discriminate|]. assert (L : last (x ++ y :: t) 0 = last (y :: t) 0).
    { clear. induction x as [|z x IH]; [reflexivity|]. cbn [app]. rewrite <- IH. destruct x; reflexivity. }
    rewrite E, last_last in L. subst c. now apply nondigit_ok.
  - intros c r ->. now apply nondigit_ok.
Qed.
Lemma integer_numbers (pre : list Z) e : integer_error e -> Forall (fun v => shows_number v (pre ++ integer_error_display e)) (integer_payload e).
Proof.
  intros H. destruct e; try contradiction; cbn [integer_error_display integer_payload];
    repeat (constructor; [|]); try constructor;
    match goal with
    | |- shows_number ?v (?p ++ text ?l ++ int_display ?v ++ ?r) => apply (shows_at p (text l) v r); [reflexivity|reflexivity|reflexivity]
    | |- shows_number ?v (?p ++ text ?l ++ int_display ?v) => apply (shows_at p (text l) v []); [now rewrite app_nil_r|reflexivity|reflexivity]
    | |- shows_number ?v (?p ++ text ?l ++ int_display ?u ++ text ?m ++ int_display ?v) => apply (shows_at (p ++ text l ++ int_display u) (text m) v []); [now rewrite app_nil_r, <- !app_assoc|reflexivity|reflexivity]
    end.
Qed.
(** Every number an error carries is shown by its message -- except those of address errors, which are not shown at all. *)
Theorem C65_numbers_shown : forall other e, own_error e -> (forall c, e <> EInvalidCashAddr c) -> Forall (fun v => shows_number v (error_display other e)) (payload e).
Proof.
  intros other e H N. assert (I : integer_error e \/ ~ integer_error e) by (destruct e; cbn [integer_error]; auto). destruct I as [I|I].
  - assert (error_display other e = text "Integer error: " ++ integer_error_display e) as -> by (destruct e; try contradiction; reflexivity).
    assert (payload e = integer_payload e) as -> by (destruct e; try contradiction; reflexivity). now apply integer_numbers.
  - destruct e as [| | | | | | | | | | | | | | | | | | | | | | | | | | |[]]; try contradiction; try (exfalso; apply I; exact Logic.I); cbn [payload integer_payload error_display]; try (constructor; fail).
    + constructor; [|constructor; [|constructor]].
      * eapply (shows_at (text "Byte array error: ") (text "Index ") _ _); [reflexivity|reflexivity|reflexivity].
      * eapply (shows_at (text "Byte array error: " ++ text "Index " ++ int_display idx) (text " is out of bounds for array with length ") _ []); [now rewrite app_nil_r, <- !app_assoc|reflexivity|reflexivity].
    + constructor; [|constructor; [|constructor]].
      * eapply (shows_at (text "Byte array error: ") (text "Invalid slice, expected ") _ _); [reflexivity|reflexivity|reflexivity].
      * eapply (shows_at (text "Byte array error: " ++ text "Invalid slice, expected " ++ int_display expected) (text " but got ") _ _); [now rewrite <- !app_assoc|reflexivity|reflexivity].
    + constructor; [|constructor; [|constructor]].
      * eapply (shows_at (text "Byte array error: ") (text "int=") _ _); [reflexivity|reflexivity|reflexivity].
      * eapply (shows_at (text "Byte array error: " ++ text "int=" ++ int_display int) (text " not valid for n_bytes=") _ []); [now rewrite app_nil_r, <- !app_assoc|reflexivity|reflexivity].
    + exfalso. eapply N. reflexivity.
    + constructor; [|constructor; [|constructor]].
      * eapply (shows_at [] (text "Invalid size: expected ") _ _); [reflexivity|reflexivity|reflexivity].
      * eapply (shows_at (text "Invalid size: expected " ++ int_display expected) (text ", got ") _ []); [now rewrite app_nil_r, <- !app_assoc|reflexivity|reflexivity].
    + constructor; [|constructor]. apply (shows_at [] (text "Script serialize error: ") _ []); [now rewrite app_nil_r|reflexivity|reflexivity].
    + constructor; [|constructor]. eapply (shows_at [] (text "Input ") _ _); [reflexivity|reflexivity|reflexivity].
    + constructor; [|constructor]. apply (shows_at (text "JSON error: ") (text "Invalid data_idx: ") _ []); [now rewrite app_nil_r|reflexivity|reflexivity].
    + constructor; [|constructor]. apply (shows_at (text "JSON error: ") (text "Invalid data_idx: ") _ []); [now rewrite app_nil_r|reflexivity|reflexivity].
    + rewrite app_assoc. now apply integer_numbers.
Qed.
Print Assumptions C65_numbers_shown.

(** The message of an address error itself (not of the [Error] it is turned into) says everything. *)
Theorem C65_address_message : forall c c',
  Forall (fun v => shows_number v (cash_addr_error_display c)) (cash_addr_payload c) /\ (cash_addr_error_display c = cash_addr_error_display c' -> c = c').
Proof.
  intros c c'. split.
  - destruct c; cbn [cash_addr_error_display cash_addr_payload]; repeat (constructor; [|]); try constructor.
    + apply (shows_at (text "Invalid Base32 letter " ++ int_display letter) (text " at index ") _ []); [now rewrite app_nil_r, <- !app_assoc|reflexivity|reflexivity].
    + eapply (shows_at [] (text "Invalid Base32 letter ") _ _); [reflexivity|reflexivity|reflexivity].
    + apply (shows_at [] (text "Invalid address type ") _ []); [now rewrite app_nil_r|reflexivity|reflexivity].
  - destruct c, c'; cbn [cash_addr_error_display]; intros E; try discriminate E; try reflexivity; apply app_inv_head in E.
    + apply int_sep' in E; [destruct E; subst; reflexivity|reflexivity].
    + f_equal. now apply int_display_inj.
Qed.
Print Assumptions C65_address_message.

(** The kind of error can be misread: an insufficient input amount is reported as a script serialisation error, the amount
    being all that follows; and an integer that cannot be multiplied is shown divided (C59). *)
Theorem C65_insufficient_amount_message_refuted : forall other amount, exists d,
  starts (text "Script serialize error: ") (error_display other EPushTooLarge) /\
  error_display other (EInsufficientInputAmount amount) = text "Script serialize error: " ++ d /\ decimal amount d.
Proof.
  intros other amount. exists (int_display amount). split; [exists (text "Push too large"); reflexivity|]. split; [reflexivity|apply int_display_ok].
Qed.
Print Assumptions C65_insufficient_amount_message_refuted.
(** What was wrong with an address, and which of the two tables of a JSON document an index missed, cannot be told from the message. *)
Theorem C65_indistinct_refuted : forall other i,
  error_display other (EInvalidCashAddr AInvalidChecksum) = error_display other (EInvalidCashAddr (AInvalidBase32Letter i 98)) /\
  error_display other (EJson (JInvalidDataIdx i)) = error_display other (EJson (JInvalidStringIdx i)).
Proof. intros other i. split; reflexivity. Qed.
Print Assumptions C65_indistinct_refuted.

(** Debugging texts of ops. *)
Theorem C59_debug_text : forall o, printable o -> debug_text o (op_debug o).
Proof.
  intros o P. destruct o as [c|b|a m|b|i]; cbn [op_debug printable] in *.
  - constructor.
  - constructor. apply (proj1 (hex_of_iff [b] _ ltac:(constructor; [unfold byte_ok; lia|constructor]))). reflexivity.
  - assert (S : forall s, text "PushByteArray{array: hex!(" ++ quote ++ s ++ quote ++ text ").to_vec(), is_minimal: " ++ bool_display m ++ text "})"
      = text "PushByteArray{array: hex!(""" ++ s ++ text """).to_vec(), is_minimal: " ++ text (if m then "true" else "false") ++ text "})").
    { intros s. change (text "PushByteArray{array: hex!(""") with (text "PushByteArray{array: hex!(" ++ quote). rewrite <- !app_assoc. do 3 f_equal. destruct m; reflexivity. }
    rewrite S. constructor. now apply hex_of_iff.
  - destruct b; [exact (DBool true)|exact (DBool false)].
  - constructor. apply int_display_ok.
Qed.
Print Assumptions C59_debug_text.
(** ... in that of a pushed array the parentheses do not match. *)
Lemma count_app c a b : count c (a ++ b) = count c a + count c b.
Proof. induction a as [|x a IH]; [reflexivity|]. cbn [app count]. rewrite IH. lia. Qed.
Lemma count_no c l : ~ In c l -> count c l = 0.
Proof. induction l as [|x l IH]; intros H; [reflexivity|]. cbn [count]. destruct (Z.eqb_spec x c); [subst; exfalso; apply H; now left|]. rewrite IH; [reflexivity|]. intros I. apply H. now right. Qed.
Theorem C59_debug_brackets_refuted : forall a m, bytes_ok (ba_data a) -> count 41 (op_debug (OPushArray a m)) = count 40 (op_debug (OPushArray a m)) + 1.
Proof.
  intros a m H. cbn [op_debug]. rewrite !count_app. rewrite (count_no 41 (hex_encode (ba_data a))), (count_no 40 (hex_encode (ba_data a))) by (apply hex_no; [exact H|unfold lower_hex; lia]).
  destruct m; reflexivity.
Qed.
Print Assumptions C59_debug_brackets_refuted.

Example C65_nonvacuous : exists other, own_error (EInvalidSplit 5 3) /\
  error_display other (EInvalidSplit 5 3) = text "Byte array error: Index 5 is out of bounds for array with length 3" /\
  error_display other (EJson (JInvalidInteger (EAddOverflow 2147483647 (-1)))) = text "JSON error: Invalid integer: Addition overflowed: 2147483647 + -1" /\
  cash_addr_error_display (AInvalidBase32Letter 12 98) = text "Invalid Base32 letter 98 at index 12" /\
  error_display other (ELeftover [0xde; 0xad]) = text "Byte array error: Leftover bytes: dead".
Proof. exists (fun _ => []). split; [exact Logic.I|]. repeat split; vm_compute; reflexivity. Qed.
