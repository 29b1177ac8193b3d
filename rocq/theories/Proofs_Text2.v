From Coq Require Import Lia.
From Verif Require Import Base BaseLemmas Model_ByteArray Model_Opcode Model_Script Model_Address Model_Hash Model_Text Spec_Hash Spec_Script Spec_Text Prop_Hash Proofs_Text.
Local Open Scope string_scope.
Local Open Scope list_scope.
Local Open Scope Z_scope.

Lemma split_at : forall (c : Z) a b r r', ~ In c a -> ~ In c b -> a ++ c :: r = b ++ c :: r' -> a = b /\ r = r'.
Proof.
  intros c. induction a as [|x a IH]; intros b r r' Ha Hb E; destruct b as [|y b]; cbn [app] in E.
  - inversion E. auto.
  - inversion E; subst. exfalso. apply Hb. now left.
  - inversion E; subst. exfalso. apply Ha. now left.
  - inversion E; subst. destruct (IH b r r') as [-> ->]; auto; intros H; [apply Ha|apply Hb]; now right.
Qed.
Lemma hex_no : forall c d, bytes_ok d -> ~ lower_hex c -> ~ In c (hex_encode d).
Proof. intros c d H N I. apply N. pose proof (hex_encode_lower d H) as F. rewrite Forall_forall in F. auto. Qed.
Lemma int_no_space : forall v, ~ In 32 (int_display v).
Proof. intros v I. destruct (decimal_chars _ _ (int_display_ok v)) as [_ F]. rewrite Forall_forall in F. specialize (F _ I). cbv beta in F. lia. Qed.
Lemma bool_display_inj : forall a b, bool_display a = bool_display b -> a = b.
Proof. destruct a, b; try reflexivity; discriminate. Qed.

Lemma op_debug_inj : forall o o', printable o -> printable o' -> op_debug o = op_debug o' -> same_op o o'.
Proof.
  intros o o' P P' E. destruct o as [c|b|a m|b|i], o' as [c'|b'|a' m'|b'|i']; cbn [op_debug] in E; try discriminate; cbn [printable] in P, P'.
  - apply app_inv_head, app_inv_tail in E. apply opcode_display_inj in E. subst. constructor.
  - apply app_inv_head, app_inv_tail in E. assert ([b] = [b']) as Q; [|inversion Q; constructor]. apply hex_inj; [constructor; [unfold byte_ok; lia|constructor]..|exact E].
  - apply app_inv_head in E. unfold quote in E. cbn [app] in E. apply (f_equal (@tl Z)) in E. cbn [tl] in E.
    apply split_at in E; [|apply hex_no; [assumption|unfold lower_hex; lia]..]. destruct E as [E1 E2]. apply app_inv_head, app_inv_tail, bool_display_inj in E2.
    subst. constructor. now apply hex_inj.
  - apply app_inv_head, app_inv_tail, bool_display_inj in E. subst. constructor.
  - apply app_inv_head, app_inv_tail, int_display_inj in E. subst. constructor.
Qed.

Lemma two_operands : forall (sep : list Z) a b a' b', int_display a ++ 32 :: sep ++ int_display b = int_display a' ++ 32 :: sep ++ int_display b' -> a = a' /\ b = b'.
Proof.
  intros sep a b a' b' E. apply split_at in E; [|apply int_no_space..]. destruct E as [E1 E2]. apply app_inv_head in E2.
  split; now apply int_display_inj.
Qed.
Lemma error_inj : forall e e', integer_error e -> integer_error e' -> integer_error_display e = integer_error_display e' -> e = e'.
Proof.
  intros e e' H H' E. destruct e; try contradiction; destruct e'; try contradiction; clear H H'; cbn [integer_error_display] in E; try discriminate;
    try apply app_inv_head in E; try reflexivity;
    first [ let t := type of E in match t with
            | int_display ?a ++ text ?s ++ _ = _ => let r := eval vm_compute in (text s) in change (text s) with r in E end;
            cbn [app] in E; match type of E with _ ++ 32 :: ?x :: 32 :: int_display _ = _ => apply (two_operands [x; 32]) in E | _ ++ 32 :: ?x :: ?y :: 32 :: int_display _ = _ => apply (two_operands [x; y; 32]) in E end;
            destruct E; subst; reflexivity
          | f_equal; now apply int_display_inj ].
Qed.
Lemma result_inj : forall r r', integer_result r -> integer_result r' -> ires_display r = ires_display r' -> r = r'.
Proof.
  assert (forall v s, int_display v <> text "(integer error: " ++ s) as K.
  { intros v s E. destruct (decimal_chars _ _ (int_display_ok v)) as [_ F]. rewrite E in F. apply Forall_app in F. destruct F as [F _]. inversion F; subst. lia. }
  intros [v|e|] [v'|e'|] H H' E; cbn [integer_result] in H, H'; try contradiction; cbn [ires_display] in E.
  - f_equal. now apply int_display_inj.
  - exfalso. exact (K _ _ E).
  - exfalso. symmetry in E. exact (K _ _ E).
  - apply app_inv_head, app_inv_tail in E. f_equal. now apply error_inj.
Qed.

Lemma ends : forall (a b t : list Z) x y z, (a ++ [x; z]) ++ t = (b ++ [y; z]) ++ t -> x = y.
Proof. intros a b t x y z E. apply app_inv_tail in E. change [x; z] with ([x] ++ [z]) in E. change [y; z] with ([y] ++ [z]) in E. rewrite !app_assoc in E.
  apply app_inj_tail in E. destruct E as [E _]. apply app_inj_tail in E. apply E. Qed.
Lemma shows : forall e, integer_error e -> (shows_operation e (integer_error_display e) <-> ~ wrong_sign e).
Proof.
  intros e H. split.
  - intros S W. destruct e; try contradiction; cbn [shows_operation] in S; unfold shows_operation in S; cbn [operation] in S;
      destruct (S _ _ _ eq_refl) as (before & sa & sb & Da & Db & E); apply int_display_iff in Da, Db; subst sa sb; cbn [integer_error_display] in E.
    + assert (45 = 43) as K; [|discriminate]. symmetry. apply (ends (text "Subtraction overflowed: " ++ int_display a ++ [32]) (before ++ text " " ++ int_display a ++ text " ") (int_display b) 43 45 32).
      rewrite <- !app_assoc. cbn [text app] in E |- *. exact E.
    + assert (42 = 47) as K; [|discriminate]. symmetry. apply (ends (text "Multiplication overflowed: " ++ int_display a ++ [32]) (before ++ text " " ++ int_display a ++ text " ") (int_display b) 47 42 32).
      rewrite <- !app_assoc. cbn [text app] in E |- *. exact E.
    + assert (62 = 60) as K; [|discriminate]. symmetry. apply (ends (text "Right shift overflow: " ++ int_display a ++ [32; 60]) (before ++ text " " ++ int_display a ++ text " >") (int_display b) 60 62 32).
      rewrite <- !app_assoc. cbn [text app] in E |- *. exact E.
  - intros N a o b E. destruct e; try contradiction; cbn [wrong_sign] in N; try (exfalso; exact (N Logic.I)); cbn [operation] in E; try discriminate; injection E; intros; subst;
      cbn [integer_error_display].
    + exists (text "Addition overflowed:"), (int_display a), (int_display b). repeat split; try apply int_display_ok.
    + exists (text "Division error:"), (int_display a), (int_display b). repeat split; try apply int_display_ok.
    + exists (text "Modulo error:"), (int_display a), (int_display b). repeat split; try apply int_display_ok.
    + exists (text "Left shift overflow:"), (int_display a), (int_display b). repeat split; try apply int_display_ok.
Qed.

Lemma hash_debug_inj : forall n n' h h', In n ["Sha1"; "Ripemd160"; "Sha256"; "Sha256d"; "Hash160"] -> In n' ["Sha1"; "Ripemd160"; "Sha256"; "Sha256d"; "Hash160"] ->
  bytes_ok (ba_data h) -> bytes_ok (ba_data h') -> hash_debug n h = hash_debug n' h' -> n = n' /\ ba_data h = ba_data h'.
Proof.
  intros n n' h h' I I' H H' E. unfold hash_debug, hash_to_hex_le, hash_to_vec_le in E.
  change (text "(" ++ hex_encode (rev (ba_data h)) ++ text ")") with (40 :: hex_encode (rev (ba_data h)) ++ text ")") in E.
  change (text "(" ++ hex_encode (rev (ba_data h')) ++ text ")") with (40 :: hex_encode (rev (ba_data h')) ++ text ")") in E.
  assert (forall n, In n ["Sha1"; "Ripemd160"; "Sha256"; "Sha256d"; "Hash160"] -> ~ In 40 (text n)) as K.
  { intros m [<-|[<-|[<-|[<-|[<-|[]]]]]]; cbn [text In]; intros C; vm_compute in C; repeat (destruct C as [C|C]; [discriminate|]); exact C. }
  apply split_at in E; [|now apply K..]. destruct E as [E1 E2]. apply app_inv_tail in E2. split.
  - destruct I as [<-|[<-|[<-|[<-|[<-|[]]]]]], I' as [<-|[<-|[<-|[<-|[<-|[]]]]]]; try reflexivity; discriminate.
  - apply hex_inj in E2; [|now apply bytes_ok_rev..]. rewrite <- (rev_involutive (ba_data h)), E2. apply rev_involutive.
Qed.
