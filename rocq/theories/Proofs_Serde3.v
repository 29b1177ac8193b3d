From Verif Require Import Base BaseLemmas Spec_Encoding Model_ByteArray Model_Opcode Model_Script Spec_Script Model_Code Spec_Code Spec_Wire Model_Json Spec_Json Spec_JsonFile
  Prop_JsonFile Model_Hash Spec_Hash Prop_Hash Model_TxBuilder Model_Slp Model_Serde Spec_Serde Proofs_Serde Proofs_Serde2.
Local Open Scope string_scope.
Local Open Scope list_scope.
Local Open Scope Z_scope.

(* ---------- tactics ---------- *)
Ltac nodups := repeat (apply NoDup_cons; [cbn; intros HH; repeat (destruct HH as [HH|HH]; [discriminate HH|]); exact HH|]); apply NoDup_nil.
Ltac cfield L V F := let a := fresh "a'" in let s := fresh "Sm" in let e := fresh "Er" in let k := fresh "Kf" in
  first [destruct (field_compl _ _ _ _ _ _ _ L V F) as (a & s & e & k)|destruct (opt_field_compl _ _ _ _ _ _ _ L V F) as (a & s & e & k)].
Ltac cfin M := match type of M with members _ _ ?l => rewrite (struct_ok _ _ l); [|nodups|exact M|repeat (apply Forall_cons; [assumption|]); apply Forall_nil] end; cbn [obind];
  repeat (match goal with E : r_field _ _ _ = Ok _ |- _ => rewrite E; clear E; cbn [obind] | E : r_opt_field _ _ _ = Ok _ |- _ => rewrite E; clear E; cbn [obind] end);
  eexists; split; [reflexivity|].
Ltac ostep E x := let e := fresh "Es" in apply obind_ok in E; destruct E as (x & e & E).
Ltac sfield L M F E := let v := fresh "Va" in let d := fresh "Df" in
  first [destruct (field_snds _ _ _ _ _ _ _ _ L M F E) as [v d]|destruct (opt_field_snds _ _ _ _ _ _ _ _ L M F E) as [v d]].
(** [calm] of a struct reader, from the list of the facts about its fields *)
Ltac calms db := let j := fresh "j" in let E := fresh "E" in let M := fresh "M" in let l := fresh "l" in intros j E;
  match type of E with obind (r_struct ?fs j) _ = _ => destruct (r_struct fs j) as [l| |] eqn:M end; cbn [obind] in E; [apply struct_inv in M|discriminate|
    eapply struct_panic; [|exact M]; repeat (apply Forall_cons; [apply checks_calm; db|]); apply Forall_nil];
  repeat (match type of E with
  | obind (r_field ?k ?r l) _ = _ => let F := fresh "F" in destruct (r_field k r l) eqn:F; cbn [obind] in E; [|discriminate|eapply field_calm; [|exact M|exact F]; db]
  | obind (r_opt_field ?k ?r l) _ = _ => let F := fresh "F" in destruct (r_opt_field k r l) eqn:F; cbn [obind] in E; [|discriminate|eapply opt_field_calm; [|exact M|exact F]; db]
  | r_field ?k ?r l = _ => eapply field_calm; [|exact M|exact E]; db
  end); try discriminate E.

(* ---------- numbers ---------- *)
Lemma u8_c V : compl r_u8 V f_u8 eq. Proof. apply agrees_compl, u8_agrees. Qed.
Lemma u32_c V : compl r_u32 V f_u32 eq. Proof. apply agrees_compl, u32_agrees. Qed.
Lemma u64_c V : compl r_u64 V f_u64 eq. Proof. apply agrees_compl, u64_agrees. Qed.
Lemma i32_c V : compl r_i32 V f_i32 eq. Proof. apply agrees_compl, i32_agrees. Qed.
Lemma bool_c V : compl r_bool V f_bool eq. Proof. apply agrees_compl, bool_agrees. Qed.
Lemma str_c V : compl r_str V f_string eq. Proof. apply agrees_compl, str_agrees. Qed.
Lemma u8_s : snds r_u8 byte_ok f_u8. Proof. apply agrees_snds; [apply u8_agrees|]. intros j a [_ H]. unfold byte_ok. lia. Qed.
Lemma u32_s : snds r_u32 u32_ok f_u32. Proof. apply agrees_snds; [apply u32_agrees|apply u32_any]. Qed.
Lemma u64_s : snds r_u64 u64_ok f_u64. Proof. apply agrees_snds; [apply u64_agrees|apply u64_any]. Qed.
Lemma i32_s : snds r_i32 i32_ok f_i32. Proof. apply agrees_snds; [apply i32_agrees|apply i32_any]. Qed.
Lemma bool_s : snds r_bool (fun _ => True) f_bool. Proof. apply agrees_snds; [apply bool_agrees|auto]. Qed.
Lemma str_s : snds r_str (fun _ => True) f_string. Proof. apply agrees_snds; [apply str_agrees|auto]. Qed.
Lemma u32_n n : u32_ok n -> f_u32 (JNum n) n. Proof. unfold u32_ok. intros H. split; [reflexivity|lia]. Qed.
Lemma u64_n n : u64_ok n -> f_u64 (JNum n) n. Proof. unfold u64_ok. intros H. split; [reflexivity|lia]. Qed.
Lemma i32_n n : i32_ok n -> f_i32 (JNum n) n. Proof. unfold i32_ok. intros H. split; [reflexivity|lia]. Qed.
Lemma u8_n n : byte_ok n -> f_u8 (JNum n) n. Proof. unfold byte_ok. intros H. split; [reflexivity|lia]. Qed.

Lemma flags_c V : compl r_flags V f_flags eq.
Proof. intros j a Va (l & M & F). cfield (u32_c (fun _ => True)) I F. unfold r_flags. cfin M. exact Sm. Qed.
Lemma flags_s : snds r_flags u32_ok f_flags.
Proof. intros j a Hf E. unfold r_flags in E. ostep E l. apply struct_inv in Es. sfield u32_s Es Hf E. split; [exact Va|]. exists l. auto. Qed.
Lemma flags_calm : calm r_flags. Proof. unfold r_flags. calms ltac:(apply of_calm). Qed.
Lemma flags_n f : u32_ok f -> f_flags (j_flags f) f.
Proof. intros H. exists [("bits", JNum f)]. split; [now left|]. eapply field_here; [reflexivity|]. now apply u32_n. Qed.
Lemma enum_c {A} (names : list (A * string)) name V : (forall a, find (fun p => String.eqb (snd p) (name a)) names = Some (a, name a)) -> compl (r_enum names) V (variant name) eq.
Proof. intros H j a _ [->| ->]; cbn [r_enum]; rewrite H; exists a; auto. Qed.
Lemma enum_s {A} (names : list (A * string)) name : (forall p, In p names -> snd p = name (fst p)) -> snds (r_enum names) (fun _ => True) (variant name).
Proof.
  intros H j a _ E. split; [exact I|]. unfold r_enum in E.
  assert (forall s, match find (fun p => String.eqb (snd p) s) names with Some p => Ok (fst p) | None => Err shape end = Ok a -> s = name a) as X.
  { intros s Es. destruct (find _ names) as [p|] eqn:F; [|discriminate]. injection Es as <-. apply find_some in F. destruct F as [I E']. apply String.eqb_eq in E'. rewrite <- E'. now apply H. }
  destruct j as [| | |s| |l]; try discriminate; [left; f_equal; now apply X|]. destruct l as [|[s [| | | | |]] [|? ?]]; try discriminate. right. now rewrite <- (X s E).
Qed.
Lemma enum_calm {A} (names : list (A * string)) : calm (r_enum names).
Proof.
  intros j E. unfold r_enum in E. destruct j as [| | |s| |l]; try discriminate; [destruct (find _ names); discriminate|].
  destruct l as [|[s [| | | | |]] [|? ?]]; try discriminate; destruct (find _ names); discriminate.
Qed.
Lemma action_c V : compl (r_enum action_names) V (variant action_name) eq. Proof. apply enum_c. intros []; reflexivity. Qed.
Lemma ttype_c V : compl (r_enum token_type_names) V (variant token_type_name) eq. Proof. apply enum_c. intros []; reflexivity. Qed.
Lemma action_s : snds (r_enum action_names) (fun _ => True) (variant action_name).
Proof. apply enum_s. intros p H. repeat (destruct H as [<-|H]; [reflexivity|]). destruct H. Qed.
Lemma ttype_s : snds (r_enum token_type_names) (fun _ => True) (variant token_type_name).
Proof. apply enum_s. intros p H. repeat (destruct H as [<-|H]; [reflexivity|]). destruct H. Qed.

(* ---------- outpoints ---------- *)
Lemma outpoint_c : compl r_outpoint outpoint_value doc_outpoint same_outpoint.
Proof. intros j a [V1 V2] (l & M & F1 & F2). cfield (hash_compl 32) V1 F1. cfield (u32_c u32_ok) V2 F2. unfold r_outpoint. cfin M. split; [exact Sm|exact Sm0]. Qed.
Lemma outpoint_s : snds r_outpoint outpoint_value doc_outpoint.
Proof.
  intros j a Hf E. unfold r_outpoint in E. ostep E l. apply struct_inv in Es. ostep E h. ostep E v. injection E as <-.
  sfield (hash_snds 32) Es Hf Es0. sfield u32_s Es Hf Es1. split; [split; [exact Va|exact Va0]|]. exists l. auto.
Qed.
Lemma outpoint_calm : calm r_outpoint. Proof. unfold r_outpoint. calms ltac:(first [apply hash_calm|apply of_calm]). Qed.
Lemma outpoint_w : wrs w_outpoint outpoint_value doc_outpoint.
Proof.
  intros a [V1 V2]. destruct (hash_wrs 32 _ V1) as (j & E & D). unfold w_outpoint. rewrite E. cbn [obind]. eexists. split; [reflexivity|]. eexists. split; [left; reflexivity|].
  split; eapply field_here; [reflexivity|exact D|reflexivity|now apply u32_n].
Qed.

Section Code.
Variable code : script -> list Z -> Prop.
Variable ss : script -> script -> Prop.
Hypothesis Hread : readable code ss.
Let script_c := script_compl code ss Hread.

Lemma input_c : compl r_input full_input_value (doc_input code) (full_same_input ss).
Proof.
  intros j a ((V1 & V2 & V3) & V4 & V5 & V6) (l & M & F1 & F2 & F3 & F4 & F5 & F6 & F7).
  cfield outpoint_c V1 F1. cfield script_c V2 F2. cfield (u32_c u32_ok) V3 F3. cfield script_c V4 F4. cfield (u64_c u64_ok) V5 F5.
  assert (opt_all (fun _ => True) (in_is_p2sh a)) as V7 by (destruct (in_is_p2sh a); exact I). cfield (bool_c (fun _ => True)) V7 F6. cfield (vec_compl _ _ _ _ (flags_c u32_ok)) V6 F7.
  unfold r_input. cfin M. unfold full_same_input. cbn [in_prev_out in_script in_sequence in_lock_script in_value in_is_p2sh in_sig_hash_flags].
  split; [exact Sm|]. split; [exact Sm0|]. split; [exact Sm1|]. split; [exact Sm2|]. split; [now apply same_option_eq|]. split; [now apply same_option_eq|].
  clear - Sm5. destruct (in_sig_hash_flags a), a'5; cbn in Sm5; try tauto. f_equal. now apply Forall2_eq.
Qed.
Lemma output_c : compl r_output output_value (doc_output code) (full_same_output ss).
Proof. intros j a [V1 V2] (l & M & F1 & F2). cfield (u64_c u64_ok) V1 F1. cfield script_c V2 F2. unfold r_output. cfin M. split; [exact Sm|exact Sm0]. Qed.
Lemma unhashed_c : compl r_unhashed_tx full_tx_value (doc_unhashed_tx code) (full_same_tx ss).
Proof.
  intros j a (V1 & V2 & V3 & V4) (l & M & F1 & F2 & F3 & F4). cfield (i32_c i32_ok) V1 F1. cfield (vec_compl _ _ _ _ input_c) V2 F2. cfield (vec_compl _ _ _ _ output_c) V3 F3. cfield (u32_c u32_ok) V4 F4.
  unfold r_unhashed_tx. cfin M. split; [exact Sm|]. split; [exact Sm0|]. split; [exact Sm1|exact Sm2].
Qed.
Lemma tx_c : compl r_tx hashed_tx_value (doc_tx code) (same_hashed_tx ss).
Proof.
  intros j a (V1 & V2 & V3) (l & M & F1 & F2 & F3). cfield unhashed_c V1 F1. cfield (hash_compl 32) V2 F2. cfield (bytes_compl (fun a => bytes_ok (ba_data a))) V3 F3.
  unfold r_tx. cfin M. split; [exact Sm|]. split; [exact Sm0|exact Sm1].
Qed.
Lemma unsigned_c : compl r_unsigned_input unsigned_value doc_unsigned_input same_unsigned.
Proof.
  intros j a (V1 & V2 & V3) (l & M & F1 & F2 & F3). cfield outpoint_c V1 F1. cfield (u32_c u32_ok) V2 F2. cfield (u64_c u64_ok) V3 F3.
  unfold r_unsigned_input. cfin M. split; [exact Sm|]. split; [exact Sm0|exact Sm1].
Qed.
Lemma token_c : compl r_token token_value doc_token eq.
Proof.
  intros j a V (l & M & F1 & F2 & F3). cfield (u64_c u64_ok) V F1. cfield (bool_c (fun _ => True)) I F2. cfield (action_c (fun _ => True)) I F3.
  unfold r_token. cfin M. destruct a. cbn in *. congruence.
Qed.
Lemma data_c : compl r_slp_data data_value doc_slp_data same_data.
Proof. intros j a V (l & M & F1). cfield (hash_compl 32) V F1. unfold r_slp_data. cfin M. exact Sm. Qed.
Lemma slp_input_c : compl r_slp_input slp_input_value (doc_slp_input code) (same_slp_input ss).
Proof.
  intros j a (V1 & V2 & V3 & V4) (l & M & F1 & F2 & F3 & F4). cfield (u64_c u64_ok) V1 F1. cfield token_c V2 F2. cfield input_c V3 F3. cfield script_c V4 F4.
  unfold r_slp_input. cfin M. split; [exact Sm|]. split; [exact Sm0|]. split; [exact Sm1|exact Sm2].
Qed.
Lemma slp_output_c : compl r_slp_output slp_output_value (doc_slp_output code) (same_slp_output ss).
Proof. intros j a (V1 & V2) (l & M & F1 & F2). cfield token_c V1 F1. cfield output_c V2 F2. unfold r_slp_output. cfin M. split; [exact Sm|exact Sm0]. Qed.
Lemma slp_tx_c : compl r_slp_tx slp_tx_value (doc_slp_tx code) (same_slp_tx ss).
Proof.
  intros j a (V1 & V2 & V3 & V4 & V5 & V6) (l & M & F1 & F2 & F3 & F4 & F5 & F6). cfield (i32_c i32_ok) V1 F1. cfield (vec_compl _ _ _ _ slp_input_c) V2 F2. cfield (vec_compl _ _ _ _ slp_output_c) V3 F3.
  cfield (u32_c u32_ok) V4 F4. cfield data_c V5 F5. cfield (hash_compl 32) V6 F6.
  unfold r_slp_tx. cfin M. split; [exact Sm|]. split; [exact Sm0|]. split; [exact Sm1|]. split; [exact Sm2|]. split; [exact Sm3|exact Sm4].
Qed.
Lemma utxo_c : compl r_slp_utxo utxo_value doc_slp_utxo same_utxo.
Proof.
  intros j a (V1 & V2 & V3) (l & M & F1 & F2 & F3). cfield unsigned_c V1 F1. cfield token_c V2 F2. cfield data_c V3 F3.
  unfold r_slp_utxo. cfin M. split; [exact Sm|]. split; [exact Sm0|exact Sm1].
Qed.
Lemma meta_c : compl r_token_meta meta_value doc_token_meta eq.
Proof.
  intros j a (V1 & V2) (l & M & F1 & F2 & F3 & F4 & F5 & F6). cfield (str_c (fun _ => True)) I F1. cfield (str_c (fun _ => True)) I F2. cfield (str_c (fun _ => True)) I F3.
  cfield (vec_compl _ _ _ _ (u8_c byte_ok)) V1 F4. cfield (u8_c byte_ok) V2 F5. cfield (ttype_c (fun _ => True)) I F6.
  unfold r_token_meta. cfin M. destruct a. cbn in *. apply Forall2_eq in Sm2. congruence.
Qed.
End Code.
