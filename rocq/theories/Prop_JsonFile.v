(** Property C33, continued: the file format and the transactions that can come out of it. *)
From Verif Require Import Base BaseLemmas Model_Integer Spec_Integer Model_ByteArray Proofs_ByteArray Model_Opcode Model_Script Proofs_Script Model_Code Model_Json Spec_Json Proofs_Json Proofs_Json2 Proofs_Json3 Spec_Base64 Prop_Json Spec_JsonFile.
Local Open Scope string_scope.
Local Open Scope list_scope.
Local Open Scope Z_scope.

(** A decoder agrees with a relation. *)
Definition agrees {A} (f : json -> option A) (R : json -> A -> Prop) : Prop := forall w x, f w = Some x <-> R w x.
Lemma keys_absent k l : keys_named k l = [] <-> absent k l.
Proof.
  unfold absent. induction l as [|[k' v] l IH]; cbn [keys_named map fst In]; [split; [intros _ []|reflexivity]|]. destruct (String.eqb k' k) eqn:E.
  - apply String.eqb_eq in E. split; [discriminate|]. intros H. exfalso. apply H. now left.
  - apply String.eqb_neq in E. rewrite IH. tauto.
Qed.
Lemma keys_once k l w : keys_named k l = [w] <-> once k l w.
Proof.
  unfold once. induction l as [|[k' v] l IH]; cbn [keys_named]; [split; [discriminate|intros ([|] & ? & ? & _); discriminate]|]. destruct (String.eqb k' k) eqn:E.
  - apply String.eqb_eq in E. subst k'. split.
    + intros H. injection H as -> H. apply keys_absent in H. exists [], l. split; [reflexivity|]. split; [intros []|exact H].
    + intros ([|[a b] l1] & l2 & H & H1 & H2); injection H; intros; subst.
      * f_equal. now apply keys_absent.
      * exfalso. apply H1. now left.
  - apply String.eqb_neq in E. rewrite IH. split.
    + intros (l1 & l2 & -> & H1 & H2). exists ((k', v) :: l1), l2. split; [reflexivity|]. split; [|exact H2]. cbn. tauto.
    + intros ([|[a b] l1] & l2 & H & H1 & H2); injection H; intros; subst; [congruence|]. exists l1, l2. split; [reflexivity|]. split; [|exact H2]. intros X. apply H1. now right.
Qed.
Lemma once_fun k l v w : once k l v -> once k l w -> v = w.
Proof. intros H1 H2. apply keys_once in H1, H2. congruence. Qed.
Lemma struct_members names v l : struct_of names v = JObj l <-> members names v l.
Proof.
  unfold members. split.
  - destruct v; cbn [struct_of]; try discriminate.
    + destruct (Nat.eqb (length l0) (length names)) eqn:E; [|discriminate]. intros H. injection H as <-. apply Nat.eqb_eq in E. right. eauto.
    + intros H. left. exact H.
  - intros [->|(vs & -> & H & ->)]; [reflexivity|]. cbn [struct_of]. now rewrite (proj2 (Nat.eqb_eq _ _) H).
Qed.
Lemma struct_objs names v : (exists l, struct_of names v = JObj l) \/ forall A k (f : json -> option A), d_field k f (struct_of names v) = None.
Proof. destruct (struct_of names v); try (right; reflexivity). left. eauto. Qed.
Lemma field_agrees {A} k (f : json -> option A) R l x : agrees f R -> d_field k f (JObj l) = Some x <-> field k R l x.
Proof.
  intros H. unfold field. cbn [d_field]. split.
  - destruct (keys_named k l) as [|w [|]] eqn:E; try discriminate. intros X. exists w. split; [now apply keys_once|now apply H].
  - intros (w & H1 & H2). apply keys_once in H1. rewrite H1. now apply H.
Qed.
Lemma nullable_agrees {A} (f : json -> option A) R : agrees f R -> agrees (d_opt f) (nullable R).
Proof.
  intros H w x. unfold d_opt, nullable. destruct x as [a|].
  - destruct w; try (split; [discriminate|intros [X _]; congruence]);
      (match goal with |- (match f ?j with _ => _ end) = _ <-> _ => destruct (f j) eqn:E; [apply H in E|]; (split; [intros X; injection X as <-; (split; [discriminate|assumption])|discriminate] || idtac) end).
    all: split; try discriminate.
    all: try (intros X; injection X as <-; split; [discriminate|assumption]).
    all: intros [_ X]; apply H in X; try apply H in E; congruence.
  - destruct w; try (split; reflexivity); destruct (f _); split; discriminate.
Qed.
Lemma opt_field_agrees {A} k (f : json -> option A) R l x : agrees f R -> d_opt_field k f (JObj l) = Some x <-> opt_field k R l x.
Proof.
  intros H. apply nullable_agrees in H. unfold opt_field, field. cbn [d_opt_field]. split.
  - destruct (keys_named k l) as [|w [|]] eqn:E; try discriminate.
    + intros X. injection X as <-. right. split; [now apply keys_absent|reflexivity].
    + intros X. left. exists w. split; [now apply keys_once|now apply H].
  - intros [(w & H1 & H2)|[H1 ->]]; [apply keys_once in H1; rewrite H1; now apply H|]. apply keys_absent in H1. now rewrite H1.
Qed.
Lemma list_agrees {A} (f : json -> option A) R : agrees f R -> agrees (d_vec f) (f_list R).
Proof.
  intros H w xs. unfold f_list. assert (forall l ys, d_all f l = Some ys <-> Forall2 R l ys) as K.
  { induction l as [|j l IH]; intros ys; cbn [d_all].
    - split; [intros X; injection X as <-; constructor|intros X; inversion X; reflexivity].
    - split.
      + destruct (f j) as [y|] eqn:E; [|discriminate]. destruct (d_all f l) as [zs|]; [|discriminate]. intros X. injection X as <-. constructor; [now apply H|now apply IH].
      + intros X. inversion X as [|? y ? zs H1 H2]; subst. apply H in H1. apply IH in H2. now rewrite H1, H2. }
  destruct w; cbn [d_vec]; try (split; [discriminate|intros (l' & E & _); discriminate]). rewrite K. split; [eauto|]. intros (l' & E & X). injection E as <-. exact X.
Qed.
Lemma int_agrees lo hi : agrees (d_int lo hi) (number lo hi).
Proof.
  intros w x. unfold number, d_int. destruct w; try (split; [discriminate|intros [E _]; discriminate]). destruct (_ && _) eqn:E.
  - apply andb_prop in E. rewrite !Z.leb_le in E. split; [intros X; injection X as <-; auto|intros [X _]; congruence].
  - split; [discriminate|]. intros [X H]. injection X as ->. rewrite !(proj2 (Z.leb_le _ _)) in E by lia. discriminate.
Qed.
Lemma u8_agrees : agrees d_u8 f_u8. Proof. apply int_agrees. Qed.
Lemma u32_agrees : agrees d_u32 f_u32. Proof. apply int_agrees. Qed.
Lemma u64_agrees : agrees d_u64 f_u64. Proof. apply int_agrees. Qed.
Lemma i32_agrees : agrees d_i32 f_i32. Proof. apply int_agrees. Qed.
Lemma index_agrees : agrees d_usize f_index.
Proof.
  intros w i. unfold d_usize, f_index. destruct (d_u64 w) as [n|] eqn:E.
  - apply u64_agrees in E. destruct E as [-> H]. unfold f_u64, number. split; [intros X; injection X as <-; rewrite Z2Nat.id by lia; auto|]. intros [X _]. injection X as ->. now rewrite Nat2Z.id.
  - split; [discriminate|]. intros X. apply u64_agrees in X. congruence.
Qed.
Lemma bool_agrees : agrees d_bool f_bool. Proof. intros w x. unfold f_bool. destruct w; cbn; split; congruence. Qed.
Lemma str_agrees : agrees d_str f_string. Proof. intros w x. unfold f_string. destruct w; cbn; split; congruence. Qed.
Lemma func_find s f : match find (fun p => String.eqb (snd p) s) func_names with Some p => Some (fst p) | None => None end = Some f <-> s = func_name f.
Proof.
  split; [|intros ->; destruct f; reflexivity]. destruct (find _ func_names) as [[g n]|] eqn:E; [|discriminate]. intros X. injection X as ->. apply find_some in E. destruct E as [E1 E2]. cbn [snd] in E2. apply String.eqb_eq in E2. subst n.
  cbn [func_names In] in E1. repeat (destruct E1 as [E1|E1]; [injection E1 as <- <-; reflexivity|]). destruct E1.
Qed.
Lemma func_agrees : agrees d_func f_func.
Proof.
  intros w f. unfold f_func. destruct w; try (cbn; split; [discriminate|intros [X|X]; discriminate]).
  - cbn [d_func]. rewrite func_find. split; [intros ->; now left|intros [X|X]; congruence].
  - destruct l as [|[k v] l]; [cbn; split; [discriminate|intros [X|X]; discriminate]|]. destruct l as [|p l].
    + destruct v; try (cbn; split; [discriminate|intros [X|X]; discriminate]). cbn [d_func]. rewrite func_find. split; [intros ->; now right|intros [X|X]; congruence].
    + destruct v; cbn; split; try discriminate; intros [X|X]; discriminate.
Qed.
Lemma pair_agrees : agrees d_code_pair f_pair.
Proof.
  intros w [n i]. unfold f_pair. cbn [fst snd]. destruct w; try (split; [discriminate|intros (? & ? & E & _); discriminate]). destruct l as [|a [|b [|c l]]]; try (split; [discriminate|intros (? & ? & E & _); discriminate]). cbn [d_code_pair]. split.
  - destruct (d_u32 a) as [x|] eqn:E1; [|discriminate]. destruct (d_usize b) as [y|] eqn:E2; [|discriminate]. intros X. injection X as <- <-. exists a, b. split; [reflexivity|]. split; [now apply u32_agrees|now apply index_agrees].
  - intros (a' & b' & E & H1 & H2). injection E as <- <-. apply u32_agrees in H1. apply index_agrees in H2. now rewrite H1, H2.
Qed.
Lemma entry_agrees : agrees d_byte_array f_entry.
Proof.
  intros w [d f n p]. unfold f_entry, d_byte_array. cbn [jb_data jb_function jb_name jb_preimages]. split.
  - destruct (d_tuple w) as [t|] eqn:E; [|discriminate]. cbn [option_map]. intros X. injection X as X. unfold d_tuple in E. destruct (d_tuple_a w) as [ta|] eqn:EA.
    { injection E as <-. unfold d_tuple_a in EA. destruct w as [| | | |l|]; try discriminate. destruct l as [|a [|b [|c [|e [|]]]]]; try discriminate.
      destruct (d_usize a) eqn:E1; [|discriminate]. destruct (d_func b) eqn:E2; [|discriminate]. destruct (d_opt d_usize c) eqn:E3; [|discriminate]. destruct (d_opt (d_vec d_usize) e) eqn:E4; [|discriminate]. injection EA as <-. injection X as <- <- <- <-.
      do 3 right. exists a, b, c, e. split; [reflexivity|]. split; [now apply index_agrees|]. split; [now apply func_agrees|]. split; [now apply (nullable_agrees _ _ index_agrees)|now apply (nullable_agrees _ _ (list_agrees _ _ index_agrees))]. }
    destruct (d_tuple_b w) as [tb|] eqn:EB.
    { injection E as <-. unfold d_tuple_b in EB. destruct w as [| | | |l|]; try discriminate. destruct l as [|a [|b [|c [|]]]]; try discriminate.
      destruct (d_usize a) eqn:E1; [|discriminate]. destruct (d_func b) eqn:E2; [|discriminate]. destruct (d_opt d_usize c) eqn:E3; [|discriminate]. injection EB as <-. injection X as <- <- <- <-.
      right. right. left. exists a, b, c. split; [reflexivity|]. split; [now apply index_agrees|]. split; [now apply func_agrees|]. split; [now apply (nullable_agrees _ _ index_agrees)|reflexivity]. }
    destruct (d_tuple_c w) as [tc|] eqn:EC.
    { injection E as <-. unfold d_tuple_c in EC. destruct w as [| | | |l|]; try discriminate. destruct l as [|a [|b [|]]]; try discriminate.
      destruct (d_usize a) eqn:E1; [|discriminate]. destruct (d_func b) eqn:E2; [|discriminate]. injection EC as <-. injection X as <- <- <- <-.
      right. left. exists a, b. split; [reflexivity|]. split; [now apply index_agrees|]. split; [now apply func_agrees|]. split; reflexivity. }
    unfold d_tuple_d in E. destruct (d_usize w) eqn:E1; [|discriminate]. injection E as <-. injection X as <- <- <- <-. left. split; [now apply index_agrees|]. repeat split.
  - intros [(H1 & -> & -> & ->)|[(a & b & -> & H1 & H2 & -> & ->)|[(a & b & c & -> & H1 & H2 & H3 & ->)|(a & b & c & e & -> & H1 & H2 & H3 & H4)]]]; apply index_agrees in H1.
    + unfold d_tuple. assert (d_tuple_a w = None /\ d_tuple_b w = None /\ d_tuple_c w = None) as (-> & -> & ->); [|unfold d_tuple_d; now rewrite H1].
      destruct w; try discriminate. repeat split.
    + apply func_agrees in H2. unfold d_tuple. cbn [d_tuple_a d_tuple_b d_tuple_c]. now rewrite H1, H2.
    + apply func_agrees in H2. apply (nullable_agrees _ _ index_agrees) in H3. unfold d_tuple. cbn [d_tuple_a d_tuple_b]. now rewrite H1, H2, H3.
    + apply func_agrees in H2. apply (nullable_agrees _ _ index_agrees) in H3. apply (nullable_agrees _ _ (list_agrees _ _ index_agrees)) in H4. unfold d_tuple. cbn [d_tuple_a]. now rewrite H1, H2, H3, H4.
Qed.
Lemma op_agrees : agrees d_op f_op.
Proof.
  intros w o. split.
  - destruct w as [| | | | |l]; try discriminate. destruct l as [|[k v] [|]]; try discriminate. cbn [d_op].
    destruct (String.eqb k "Code") eqn:K1; [apply String.eqb_eq in K1; subst k; destruct (d_u8 v) eqn:E; [|discriminate]; intros X; injection X as <-; exists v; split; [reflexivity|now apply u8_agrees]|].
    destruct (String.eqb k "Invalid") eqn:K2; [apply String.eqb_eq in K2; subst k; destruct (d_u8 v) eqn:E; [|discriminate]; intros X; injection X as <-; exists v; split; [reflexivity|now apply u8_agrees]|].
    destruct (String.eqb k "PushByteArray") eqn:K3.
    { apply String.eqb_eq in K3. subst k. cbv zeta. destruct (struct_objs ["array_idx"; "is_minimal"] v) as [(l & E)|E]; [|rewrite (E _ "array_idx"); discriminate]. rewrite E. apply struct_members in E.
      destruct (d_field "array_idx" d_usize (JObj l)) eqn:E1; [|discriminate]. destruct (d_field "is_minimal" d_bool (JObj l)) eqn:E2; [|discriminate]. intros X. injection X as <-. exists v, l. split; [reflexivity|]. split; [exact E|].
      split; [now apply (field_agrees _ _ _ _ _ index_agrees)|now apply (field_agrees _ _ _ _ _ bool_agrees)]. }
    destruct (String.eqb k "PushBoolean") eqn:K4; [apply String.eqb_eq in K4; subst k; destruct (d_bool v) eqn:E; [|discriminate]; intros X; injection X as <-; exists v; split; [reflexivity|now apply bool_agrees]|].
    destruct (String.eqb k "PushInteger") eqn:K5; [|discriminate]. apply String.eqb_eq in K5. subst k. destruct (d_i32 v) eqn:E; [|discriminate]. intros X. injection X as <-. exists v. split; [reflexivity|now apply i32_agrees].
  - destruct o; cbn [f_op].
    + intros (v & -> & H). apply u8_agrees in H. transitivity (option_map JCode (d_u8 v)); [reflexivity|now rewrite H].
    + intros (v & -> & H). apply u8_agrees in H. transitivity (option_map JInvalid (d_u8 v)); [reflexivity|now rewrite H].
    + intros (v & l & -> & M & H1 & H2). apply struct_members in M. apply (field_agrees _ _ _ _ _ index_agrees) in H1. apply (field_agrees _ _ _ _ _ bool_agrees) in H2.
      transitivity (let v := struct_of ["array_idx"; "is_minimal"] v in match d_field "array_idx" d_usize v, d_field "is_minimal" d_bool v with Some i, Some m => Some (JPushByteArray i m) | _, _ => None end); [reflexivity|]. cbv zeta. now rewrite M, H1, H2.
    + intros (v & -> & H). apply bool_agrees in H. transitivity (option_map JPushBoolean (d_bool v)); [reflexivity|now rewrite H].
    + intros (v & -> & H). apply i32_agrees in H. transitivity (option_map JPushInteger (d_i32 v)); [reflexivity|now rewrite H].
Qed.
(** Structs: turn the decoder's field reads into the specification's and back. *)
Ltac fwd_field AG := match goal with
  | |- context [d_field ?k ?f (JObj ?l)] => let E := fresh "F" in destruct (d_field k f (JObj l)) eqn:E; [apply (field_agrees _ _ _ _ _ AG) in E|discriminate] end.
Ltac fwd_opt AG := match goal with
  | |- context [d_opt_field ?k ?f (JObj ?l)] => let E := fresh "F" in destruct (d_opt_field k f (JObj l)) eqn:E; [apply (opt_field_agrees _ _ _ _ _ AG) in E|discriminate] end.
Lemma names_agrees : agrees (d_vec (d_opt d_usize)) (f_list (nullable f_index)). Proof. apply list_agrees, nullable_agrees, index_agrees. Qed.
Lemma tagged_agrees : agrees d_tagged_op f_tagged_op.
Proof.
  intros w t. unfold d_tagged_op, f_tagged_op. cbv zeta. destruct (struct_objs ["op"; "src_file"; "src_line"; "src_column"; "src_code"; "pushed_names"; "alt_pushed_names"] w) as [(l & E)|E].
  - rewrite E. apply struct_members in E. unfold d_names. split.
    + fwd_field op_agrees. fwd_field index_agrees. fwd_field u32_agrees. fwd_field u32_agrees. fwd_field (list_agrees _ _ pair_agrees). fwd_opt names_agrees. fwd_opt names_agrees. intros X. injection X as <-. exists l. cbn [jt_op jt_src_file jt_src_line jt_src_column jt_src_code jt_pushed_names jt_alt_pushed_names]. tauto.
    + intros (l' & M & F1 & F2 & F3 & F4 & F5 & F6 & F7). apply struct_members in E, M. assert (l' = l) as -> by congruence.
      apply (field_agrees _ _ _ _ _ op_agrees) in F1. apply (field_agrees _ _ _ _ _ index_agrees) in F2. apply (field_agrees _ _ _ _ _ u32_agrees) in F3, F4. apply (field_agrees _ _ _ _ _ (list_agrees _ _ pair_agrees)) in F5. apply (opt_field_agrees _ _ _ _ _ names_agrees) in F6, F7.
      rewrite F1, F2, F3, F4, F5, F6, F7. now destruct t.
  - rewrite (E _ "op"). split; [discriminate|]. intros (l & M & (x & M1 & _) & _). apply struct_members in M. specialize (E _ "op" Some). rewrite M in E. cbn [d_field] in E. apply keys_once in M1. rewrite M1 in E. discriminate.
Qed.
Lemma flags_agrees : agrees d_flags f_flags.
Proof.
  intros w t. unfold d_flags, f_flags. cbv zeta. destruct (struct_objs ["bits"] w) as [(l & E)|E].
  - rewrite E, (field_agrees _ _ _ _ _ u32_agrees). apply struct_members in E. split; [eauto|]. intros (l' & M & F). apply struct_members in E, M. assert (l' = l) as -> by congruence. exact F.
  - rewrite (E _ "bits"). split; [discriminate|]. intros (l & M & (x & M1 & _)). apply struct_members in M. specialize (E _ "bits" Some). rewrite M in E. cbn [d_field] in E. apply keys_once in M1. rewrite M1 in E. discriminate.
Qed.
Lemma input_agrees : agrees d_input f_input.
Proof.
  intros w t. unfold d_input, f_input. cbv zeta. destruct (struct_objs ["prev_out_hash"; "prev_out_vout"; "script"; "sequence"; "lock_script"; "value"; "is_p2sh"; "sig_hash_flags"] w) as [(l & E)|E].
  - rewrite E. apply struct_members in E. split.
    + fwd_field index_agrees. fwd_field u32_agrees. fwd_field (list_agrees _ _ tagged_agrees). fwd_field u32_agrees. fwd_opt (list_agrees _ _ tagged_agrees). fwd_opt u64_agrees. fwd_opt bool_agrees. fwd_opt (list_agrees _ _ flags_agrees). intros X. injection X as <-. exists l.
      cbn [ji_prev_out_hash ji_prev_out_vout ji_script ji_sequence ji_lock_script ji_value ji_is_p2sh ji_sig_hash_flags]. tauto.
    + intros (l' & M & F1 & F2 & F3 & F4 & F5 & F6 & F7 & F8). apply struct_members in E, M. assert (l' = l) as -> by congruence.
      apply (field_agrees _ _ _ _ _ index_agrees) in F1. apply (field_agrees _ _ _ _ _ u32_agrees) in F2, F4. apply (field_agrees _ _ _ _ _ (list_agrees _ _ tagged_agrees)) in F3. apply (opt_field_agrees _ _ _ _ _ (list_agrees _ _ tagged_agrees)) in F5.
      apply (opt_field_agrees _ _ _ _ _ u64_agrees) in F6. apply (opt_field_agrees _ _ _ _ _ bool_agrees) in F7. apply (opt_field_agrees _ _ _ _ _ (list_agrees _ _ flags_agrees)) in F8.
      rewrite F1, F2, F3, F4, F5, F6, F7, F8. now destruct t.
  - rewrite (E _ "prev_out_hash"). split; [discriminate|]. intros (l & M & (x & M1 & _) & _). apply struct_members in M. specialize (E _ "prev_out_hash" Some). rewrite M in E. cbn [d_field] in E. apply keys_once in M1. rewrite M1 in E. discriminate.
Qed.
Lemma output_agrees : agrees d_output f_output.
Proof.
  intros w t. unfold d_output, f_output. cbv zeta. destruct (struct_objs ["value"; "script"] w) as [(l & E)|E].
  - rewrite E. apply struct_members in E. split.
    + fwd_field u64_agrees. fwd_field (list_agrees _ _ tagged_agrees). intros X. injection X as <-. exists l. cbn [jo_value jo_script]. tauto.
    + intros (l' & M & F1 & F2). apply struct_members in E, M. assert (l' = l) as -> by congruence. apply (field_agrees _ _ _ _ _ u64_agrees) in F1. apply (field_agrees _ _ _ _ _ (list_agrees _ _ tagged_agrees)) in F2. rewrite F1, F2. now destruct t.
  - rewrite (E _ "value"). split; [discriminate|]. intros (l & M & (x & M1 & _) & _). apply struct_members in M. specialize (E _ "value" Some). rewrite M in E. cbn [d_field] in E. apply keys_once in M1. rewrite M1 in E. discriminate.
Qed.
Lemma data_agrees : agrees d_data f_data.
Proof.
  intros w t. unfold d_data, f_data. cbv zeta. destruct (struct_objs ["data_b64"; "byte_arrays"; "strings"] w) as [(l & E)|E].
  - rewrite E. apply struct_members in E. split.
    + fwd_field (list_agrees _ _ str_agrees). fwd_field (list_agrees _ _ entry_agrees). fwd_field (list_agrees _ _ str_agrees). intros X. injection X as <-. exists l. cbn [jd_data_b64 jd_byte_arrays jd_strings jd_string_indices jd_data_indices]. tauto.
    + intros (l' & M & F1 & F2 & F3 & F4 & F5). apply struct_members in E, M. assert (l' = l) as -> by congruence. apply (field_agrees _ _ _ _ _ (list_agrees _ _ str_agrees)) in F1, F3. apply (field_agrees _ _ _ _ _ (list_agrees _ _ entry_agrees)) in F2.
      rewrite F1, F2, F3. destruct t; cbn in *. congruence.
  - rewrite (E _ "data_b64"). split; [discriminate|]. intros (l & M & (x & M1 & _) & _). apply struct_members in M. specialize (E _ "data_b64" Some). rewrite M in E. cbn [d_field] in E. apply keys_once in M1. rewrite M1 in E. discriminate.
Qed.
Lemma tx_agrees : agrees d_tx file_of.
Proof.
  intros w t. unfold d_tx, file_of. cbv zeta. destruct (struct_objs ["data"; "version"; "inputs"; "outputs"; "lock_time"] w) as [(l & E)|E].
  - rewrite E. apply struct_members in E. split.
    + fwd_field data_agrees. fwd_field i32_agrees. fwd_field (list_agrees _ _ input_agrees). fwd_field (list_agrees _ _ output_agrees). fwd_field u32_agrees. intros X. injection X as <-. exists l. cbn [jx_data jx_version jx_inputs jx_outputs jx_lock_time]. tauto.
    + intros (l' & M & F1 & F2 & F3 & F4 & F5). apply struct_members in E, M. assert (l' = l) as -> by congruence. apply (field_agrees _ _ _ _ _ data_agrees) in F1. apply (field_agrees _ _ _ _ _ i32_agrees) in F2.
      apply (field_agrees _ _ _ _ _ (list_agrees _ _ input_agrees)) in F3. apply (field_agrees _ _ _ _ _ (list_agrees _ _ output_agrees)) in F4. apply (field_agrees _ _ _ _ _ u32_agrees) in F5. rewrite F1, F2, F3, F4, F5. now destruct t.
  - rewrite (E _ "data"). split; [discriminate|]. intros (l & M & (x & M1 & _) & _). apply struct_members in M. specialize (E _ "data" Some). rewrite M in E. cbn [d_field] in E. apply keys_once in M1. rewrite M1 in E. discriminate.
Qed.

(** What [json_to_tx] accepts, and with what result: the files of the format whose tables have a meaning. *)
Theorem C33_reads_files : forall dec v t, reads_to dec v (Ok t) <-> exists j, file_of v j /\ tx_means dec j t.
Proof.
  intros dec v t. rewrite C33_reads_meaning. split; intros (j & H & M); exists j; (split; [now apply tx_agrees|exact M]).
Qed.
Print Assumptions C33_reads_files.
(** A value that is not a file of the format is an error. *)
Theorem C33_other_values_are_errors : forall dec v, (forall j, ~ file_of v j) -> reads_to dec v (Err (EJson JShape)).
Proof.
  intros dec v H. exists O. intros fuel _. unfold json_to_tx. destruct (d_tx v) as [j|] eqn:E; [|reflexivity]. apply tx_agrees in E. destruct (H j E).
Qed.
Print Assumptions C33_other_values_are_errors.
(** What is written is a file of the format (and so keeps the documented names and forms). *)
Theorem C32_writes_files : forall enc t, tx_in_range t -> tables_fit (json_from_tx enc t) -> (exists dec, base64_ok enc dec) ->
  exists j, file_of (tx_to_json enc t) j /\ jx_version j = tx_version t /\ jx_lock_time j = tx_lock_time t /\
    jd_strings (jx_data j) = jd_strings (jx_data (json_from_tx enc t)) /\ jd_byte_arrays (jx_data j) = jd_byte_arrays (jx_data (json_from_tx enc t)) /\
    jd_data_b64 (jx_data j) = jd_data_b64 (jx_data (json_from_tx enc t)).
Proof.
  intros enc t HR HT (dec & RT). destruct (written_ok enc dec t RT HR HT) as (d & ins & outs & E & _ & D). apply tx_agrees in D. eexists. split; [exact D|]. rewrite E. repeat split.
Qed.
Print Assumptions C32_writes_files.

(** ** ranges *)
Lemma array_deep dec d : decodes_bytes dec -> forall a i, array_means dec d a i -> deep_ok a.
Proof.
  intros HD. induction a as [data name f|data name f ps IH] using barray_ind'; intros i; rewrite array_means_eq.
  - intros (j & s & _ & _ & H & _). split; [eapply HD; exact H|exact I].
  - intros (j & s & _ & _ & H & _ & _ & H6). split; [eapply HD; exact H|]. destruct (jb_preimages j) as [is|]; [|destruct H6]. cbn [opt_rel] in H6. clear H. revert IH. induction H6 as [|x y xs ys Hx _ IHl]; intros IH; [exact I|].
    inversion IH as [|? ? P1 P2]; subst. split; [exact (P1 _ Hx)|exact (IHl P2)].
Qed.
Lemma op_range dec d w j o : decodes_bytes dec -> f_op w j -> op_means dec d j o -> op_in_range o.
Proof.
  intros HD F M. destruct j, o; cbn [op_means] in M; try contradiction; try exact I; try (match type of M with _ /\ _ => let M1 := fresh "M" in destruct M as [M1 ?] end); subst; cbn [f_op op_in_range] in *.
  - destruct F as (v & _ & _ & H). unfold byte_ok. lia.
  - destruct F as (v & _ & _ & H). unfold byte_ok. lia.
  - eapply array_deep; eassumption.
  - assumption.
Qed.
Lemma field_any {A} k (R : json -> A -> Prop) l x : field k R l x -> exists w, R w x. Proof. intros (w & _ & H). eauto. Qed.
Lemma opt_field_any {A} k (R : json -> A -> Prop) l x : opt_field k R l x -> opt_all (fun a => exists w, R w a) x.
Proof. intros [(w & _ & H)|[_ ->]]; [|exact I]. destruct x; [|exact I]. destruct H. cbn. eauto. Qed.
Lemma list_any {A} (R : json -> A -> Prop) w xs : f_list R w xs -> Forall (fun a => exists v, R v a) xs.
Proof. intros (l & _ & H). induction H; constructor; eauto. Qed.
Lemma u32_any w n : f_u32 w n -> u32_ok n. Proof. intros [_ H]. unfold u32_ok. lia. Qed.
Lemma u64_any w n : f_u64 w n -> u64_ok n. Proof. intros [_ H]. unfold u64_ok. lia. Qed.
Lemma i32_any w n : f_i32 w n -> i32_ok n. Proof. intros [_ H]. unfold i32_ok. lia. Qed.
Lemma tagged_range dec d w j t : decodes_bytes dec -> f_tagged_op w j -> tagged_means dec d j t -> tagged_in_range t.
Proof.
  intros HD (l & _ & F1 & _ & F3 & F4 & F5 & _) (M1 & _ & M3 & M4 & M5 & _). apply field_any in F1, F3, F4, F5. destruct F1 as (w1 & F1), F3 as (w3 & F3), F4 as (w4 & F4), F5 as (w5 & F5). split; [eapply op_range; eassumption|]. rewrite <- M3, <- M4. split; [eapply u32_any; eassumption|]. split; [eapply u32_any; eassumption|].
  apply list_any in F5. revert F5. induction M5 as [|x y xs ys [Hx _] _ IH]; intros F5; [constructor|]. inversion F5 as [|? ? (v & a & b & _ & P1 & _) P2]; subst. constructor; [|now apply IH]. rewrite <- Hx. eapply u32_any; eassumption.
Qed.
Lemma script_range dec d js s : decodes_bytes dec -> Forall (fun j => exists w, f_tagged_op w j) js -> script_means dec d js s -> Forall tagged_in_range s.
Proof. intros HD F M. revert F. induction M as [|x y xs ys Hx _ IH]; intros F; [constructor|]. inversion F as [|? ? (w & P1) P2]; subst. constructor; [eapply tagged_range; eassumption|now apply IH]. Qed.
Lemma input_range dec d w j i : decodes_bytes dec -> f_input w j -> input_means dec d j i -> input_in_range i.
Proof.
  intros HD (l & _ & _ & F2 & F3 & F4 & F5 & F6 & _ & F8) (M1 & M2 & M3 & M4 & M5 & M6 & M7 & _ & M9).
  apply field_any in F2, F3, F4. apply opt_field_any in F5, F6, F8. destruct F2 as (w2 & F2), F3 as (w3 & F3), F4 as (w4 & F4).
  split; [eapply array_deep; eassumption|]. split; [exact M2|]. rewrite <- M3, <- M5, <- M7, <- M9. split; [eapply u32_any; eassumption|]. split; [eapply script_range; [exact HD|apply list_any in F3; exact F3|exact M4]|]. split; [eapply u32_any; eassumption|].
  split; [|split].
  - destruct (ji_lock_script j) as [x|], (in_lock_script i) as [y|]; cbn [opt_rel opt_all] in *; try exact I; try contradiction. destruct F5 as (v & F5). eapply script_range; [exact HD|apply list_any in F5; exact F5|exact M6].
  - destruct (ji_value j); [|exact I]. destruct F6 as (v & F6). cbn. eapply u64_any; eassumption.
  - destruct (ji_sig_hash_flags j); [|exact I]. destruct F8 as (v & F8). apply list_any in F8. cbn. eapply Forall_impl; [|exact F8]. intros a (u & l' & _ & X). apply field_any in X. destruct X as (z & X). eapply u32_any; eassumption.
Qed.
Lemma output_range dec d w j o : decodes_bytes dec -> f_output w j -> output_means dec d j o -> output_in_range o.
Proof.
  intros HD (l & _ & F1 & F2) (M1 & M2). apply field_any in F1, F2. destruct F1 as (w1 & F1), F2 as (w2 & F2). split; [rewrite <- M1; eapply u64_any; eassumption|]. eapply script_range; [exact HD|apply list_any in F2; exact F2|exact M2].
Qed.
(** Whatever the file says, a transaction that comes out of it has every field in the range of its type: opcode
    bytes below 256, script integers within the script range, 32-byte hashes, 32- and 64-bit fields. *)
Theorem C33_results_in_range : forall dec v t, decodes_bytes dec -> reads_to dec v (Ok t) -> tx_in_range t.
Proof.
  intros dec v t HD H. apply C33_reads_files in H. destruct H as (j & (l & _ & _ & F2 & F3 & F4 & F5) & M1 & M2 & M3 & M4). apply field_any in F2, F3, F4, F5. destruct F2 as (w2 & F2), F3 as (w3 & F3), F4 as (w4 & F4), F5 as (w5 & F5).
  apply list_any in F3, F4. split; [rewrite <- M1; eapply i32_any; eassumption|]. split; [|split; [|rewrite <- M4; eapply u32_any; eassumption]].
  - clear - HD F3 M2. revert F3. induction M2 as [|x y xs ys Hx _ IH]; intros F; [constructor|]. inversion F as [|? ? (w & P1) P2]; subst. constructor; [eapply input_range; eassumption|now apply IH].
  - clear - HD F4 M3. revert F4. induction M3 as [|x y xs ys Hx _ IH]; intros F; [constructor|]. inversion F as [|? ? (w & P1) P2]; subst. constructor; [eapply output_range; eassumption|now apply IH].
Qed.
Print Assumptions C33_results_in_range.
(** So it can be written again, and read again with the same result. *)
Theorem C33_rewrites : forall enc dec v t, base64_ok enc dec -> decodes_bytes dec -> reads_to dec v (Ok t) -> tables_fit (json_from_tx enc t) -> reads_to dec (tx_to_json enc t) (Ok t).
Proof. intros enc dec v t RT HD H HT. apply C32_round_trip; [exact RT|eapply C33_results_in_range; eassumption|exact HT]. Qed.
Print Assumptions C33_rewrites.

(** A file in array form, with an entry in object form; an opcode byte out of range. *)
Definition ex_row_file (code : Z) : json :=
  JArr [JArr [JArr [JStr "AQID"]; JArr [JArr [JNum 0; JObj [("Sha256", JNull)]]]; JArr [JStr "f"]]; JNum 2; JArr [];
        JArr [JArr [JNum 5; JArr [JArr [JObj [("Code", JNum code)]; JNum 0; JNum 0; JNum 0; JArr []; JNull; JNull];
                                  JArr [JObj [("PushByteArray", JArr [JNum 0; JBool false])]; JNum 0; JNum 0; JNum 0; JArr []; JNull; JNull]]]]; JNum 9].
Lemma b64_value_range c v : b64_value c = Some v -> 0 <= v < 64.
Proof.
  unfold b64_value. destruct (andb _ _) eqn:E1; [|destruct (andb _ _) eqn:E2 in |- *; [|destruct (andb _ _) eqn:E3 in |- *]]; cbv zeta.
  - apply andb_prop in E1. rewrite !Z.leb_le in E1. intros X. injection X as <-. lia.
  - apply andb_prop in E2. rewrite !Z.leb_le in E2. intros X. injection X as <-. lia.
  - apply andb_prop in E3. rewrite !Z.leb_le in E3. intros X. injection X as <-. lia.
  - destruct (_ =? 43); [intros X; injection X as <-; lia|]. destruct (_ =? 47); [intros X; injection X as <-; lia|discriminate].
Qed.
Lemma rfc_bytes : decodes_bytes rfc_decode.
Proof.
  assert (forall n s, (String.length s <= n)%nat -> forall b, rfc_decode s = Some b -> bytes_ok b) as H; [|intros s b; exact (H (String.length s) s (Nat.le_refl _) b)].
  induction n as [|n IH]; intros s Hs b.
  - destruct s; [|cbn in Hs; lia]. intros X. injection X as <-. constructor.
  - destruct s as [|a [|a2 [|a3 [|a4 r]]]]; cbn [rfc_decode]; try discriminate; [intros X; injection X as <-; constructor|].
    destruct (b64_value a) as [x|] eqn:E1; [|discriminate]. destruct (b64_value a2) as [y|] eqn:E2; [|discriminate]. apply b64_value_range in E1, E2.
    destruct (b64_value a3) as [z|] eqn:E3; [apply b64_value_range in E3|]; (destruct (b64_value a4) as [w|] eqn:E4; [apply b64_value_range in E4|]); try discriminate.
    + destruct (rfc_decode r) as [l|] eqn:E; [|discriminate]. intros X. injection X as <-. apply IH in E; [|cbn [String.length] in Hs; lia].
      repeat (apply Forall_cons; [unfold byte_ok; Z.to_euclidean_division_equations; lia|]). exact E.
    + destruct (_ && _); [|discriminate]. intros X. injection X as <-. repeat (apply Forall_cons; [unfold byte_ok; Z.to_euclidean_division_equations; lia|]). constructor.
    + destruct (_ && _); [|discriminate]. intros X. injection X as <-. repeat (apply Forall_cons; [unfold byte_ok; Z.to_euclidean_division_equations; lia|]). constructor.
Qed.
Definition ex_row_tx : unhashed_tx :=
  UnhashedTx 2 [] [TxOutput 5 [TaggedOp (OCode OP_DUP) "f" 0 0 [] None None; TaggedOp (OPushArray (BA [1; 2; 3] None FSha256 None) false) "f" 0 0 [] None None]] 9.
Example C33_files_nonvacuous : decodes_bytes rfc_decode /\ base64_ok rfc_encode rfc_decode /\ tables_fit (json_from_tx rfc_encode ex_row_tx) /\
  reads_to rfc_decode (ex_row_file 118) (Ok ex_row_tx) /\ (exists j, file_of (ex_row_file 118) j) /\
  (forall c, ~ 0 <= c <= 255 -> (forall j, ~ file_of (ex_row_file c) j)) /\ (forall j, ~ file_of (JNum 0) j).
Proof.
  split; [exact rfc_bytes|]. split; [exact rfc_base64_ok|]. split; [vm_compute; reflexivity|].
  split; [apply (C33_result_unique rfc_decode (ex_row_file 118) 5); vm_compute; reflexivity|].
  split; [eexists; apply tx_agrees; vm_compute; reflexivity|]. split.
  - intros c Hc j H. apply tx_agrees in H.
    assert (d_u8 (JNum c) = None) as E. { destruct (d_u8 (JNum c)) eqn:E; [|reflexivity]. apply u8_agrees in E. destruct E as [E ?]. injection E as <-. lia. }
    assert (d_op (JObj [("Code", JNum c)]) = None) as E2 by (transitivity (option_map JCode (d_u8 (JNum c))); [reflexivity|now rewrite E]).
    assert (d_tx (ex_row_file c) = match d_op (JObj [("Code", JNum c)]) with Some _ => d_tx (ex_row_file c) | None => None end) as E3; [|rewrite H, E2 in E3; discriminate].
    rewrite E2. clear H. unfold d_tx. cbv zeta.
    assert (d_field "outputs" (d_vec d_output) (struct_of ["data"; "version"; "inputs"; "outputs"; "lock_time"] (ex_row_file c)) = None) as ->.
    { transitivity (d_vec d_output (JArr [JArr [JNum 5; JArr [JArr [JObj [("Code", JNum c)]; JNum 0; JNum 0; JNum 0; JArr []; JNull; JNull];
                                  JArr [JObj [("PushByteArray", JArr [JNum 0; JBool false])]; JNum 0; JNum 0; JNum 0; JArr []; JNull; JNull]]]])); [reflexivity|]. cbn [d_vec d_all].
      match goal with |- match d_output ?x with _ => _ end = _ => assert (d_output x = None) as ->; [|reflexivity] end.
      unfold d_output. cbv zeta. match goal with |- context [d_field "script" ?f ?x] => assert (d_field "script" f x = None) as ->; [|destruct (d_field _ _ _); reflexivity] end.
      match goal with |- d_field _ _ (struct_of _ (JArr [_; ?x])) = _ => transitivity (d_vec d_tagged_op x); [reflexivity|] end. cbn [d_vec d_all].
      match goal with |- match d_tagged_op ?x with _ => _ end = _ => assert (d_tagged_op x = None) as ->; [|reflexivity] end.
      unfold d_tagged_op. cbv zeta. match goal with |- context [d_field "op" ?f ?x] => assert (d_field "op" f x = None) as ->; [|reflexivity] end. exact E2. }
    repeat match goal with |- context [d_field ?a ?b ?c] => destruct (d_field a b c) end; reflexivity.
  - intros j H. apply tx_agrees in H. discriminate.
Qed.
