From Verif Require Import Base BaseLemmas Spec_Encoding Model_ByteArray Model_Opcode Model_Script Spec_Script Model_Code Spec_Code Spec_Wire Model_Json Spec_Json Spec_JsonFile
  Prop_JsonFile Model_Hash Spec_Hash Prop_Hash Model_TxBuilder Model_Slp Model_Serde Spec_Serde Proofs_Serde Proofs_Serde2 Proofs_Serde3.
Local Open Scope string_scope.
Local Open Scope list_scope.
Local Open Scope Z_scope.
Notation len := (wire_script false).

Lemma vflags_s : snds (r_vec r_flags) (Forall u32_ok) (f_list f_flags). Proof. apply vec_snds, flags_s. Qed.
Lemma input_s : snds r_input full_input_value (doc_input len).
Proof.
  intros j a Hf E. unfold r_input in E. ostep E l. apply struct_inv in Es. ostep E p. ostep E s. ostep E q. ostep E k. ostep E v. ostep E b. ostep E f. injection E as <-.
  sfield outpoint_s Es Hf Es0. sfield script_snds Es Hf Es1. sfield u32_s Es Hf Es2. sfield script_snds Es Hf Es3. sfield u64_s Es Hf Es4. sfield bool_s Es Hf Es5. sfield vflags_s Es Hf Es6.
  split; [split; [split; [exact Va|split; [exact Va0|exact Va1]]|split; [exact Va2|split; [exact Va3|exact Va5]]]|]. exists l. repeat (split; [assumption|]). assumption.
Qed.
Lemma output_s : snds r_output output_value (doc_output len).
Proof.
  intros j a Hf E. unfold r_output in E. ostep E l. apply struct_inv in Es. ostep E v. ostep E s. injection E as <-.
  sfield u64_s Es Hf Es0. sfield script_snds Es Hf Es1. split; [split; assumption|]. exists l. auto.
Qed.
Lemma vinput_s : snds (r_vec r_input) (Forall full_input_value) (f_list (doc_input len)). Proof. apply vec_snds, input_s. Qed.
Lemma voutput_s : snds (r_vec r_output) (Forall output_value) (f_list (doc_output len)). Proof. apply vec_snds, output_s. Qed.
Lemma unhashed_s : snds r_unhashed_tx full_tx_value (doc_unhashed_tx len).
Proof.
  intros j a Hf E. unfold r_unhashed_tx in E. ostep E l. apply struct_inv in Es. ostep E v. ostep E i. ostep E o. ostep E k. injection E as <-.
  sfield i32_s Es Hf Es0. sfield vinput_s Es Hf Es1. sfield voutput_s Es Hf Es2. sfield u32_s Es Hf Es3.
  split; [split; [exact Va|split; [exact Va0|split; [exact Va1|exact Va2]]]|]. exists l. repeat (split; [assumption|]). assumption.
Qed.
Lemma tx_s : snds r_tx hashed_tx_value (doc_tx len).
Proof.
  intros j a Hf E. unfold r_tx in E. ostep E l. apply struct_inv in Es. ostep E u. ostep E h. ostep E r. injection E as <-.
  sfield unhashed_s Es Hf Es0. sfield (hash_snds 32) Es Hf Es1. sfield bytes_snds Es Hf Es2. split; [split; [exact Va|split; [exact Va0|exact Va1]]|]. exists l. auto.
Qed.
Lemma unsigned_s : snds r_unsigned_input unsigned_value doc_unsigned_input.
Proof.
  intros j a Hf E. unfold r_unsigned_input in E. ostep E l. apply struct_inv in Es. ostep E u. ostep E h. ostep E r. injection E as <-.
  sfield outpoint_s Es Hf Es0. sfield u32_s Es Hf Es1. sfield u64_s Es Hf Es2. split; [split; [exact Va|split; [exact Va0|exact Va1]]|]. exists l. auto.
Qed.
Lemma token_s : snds r_token token_value doc_token.
Proof.
  intros j a Hf E. unfold r_token in E. ostep E l. apply struct_inv in Es. ostep E u. ostep E h. ostep E r. injection E as <-.
  sfield u64_s Es Hf Es0. sfield bool_s Es Hf Es1. sfield action_s Es Hf Es2. split; [exact Va|]. exists l. auto.
Qed.
Lemma data_s : snds r_slp_data data_value doc_slp_data.
Proof. intros j a Hf E. unfold r_slp_data in E. ostep E l. apply struct_inv in Es. ostep E h. injection E as <-. sfield (hash_snds 32) Es Hf Es0. split; [exact Va|]. exists l. auto. Qed.
Lemma slp_input_s : snds r_slp_input slp_input_value (doc_slp_input len).
Proof.
  intros j a Hf E. unfold r_slp_input in E. ostep E l. apply struct_inv in Es. ostep E i. ostep E k. ostep E t. ostep E p. injection E as <-.
  sfield u64_s Es Hf Es0. sfield token_s Es Hf Es1. sfield input_s Es Hf Es2. sfield script_snds Es Hf Es3.
  split; [split; [exact Va|split; [exact Va0|split; [exact Va1|exact Va2]]]|]. exists l. repeat (split; [assumption|]). assumption.
Qed.
Lemma slp_output_s : snds r_slp_output slp_output_value (doc_slp_output len).
Proof.
  intros j a Hf E. unfold r_slp_output in E. ostep E l. apply struct_inv in Es. ostep E v. ostep E s. injection E as <-.
  sfield token_s Es Hf Es0. sfield output_s Es Hf Es1. split; [split; assumption|]. exists l. auto.
Qed.
Lemma vslp_input_s : snds (r_vec r_slp_input) (Forall slp_input_value) (f_list (doc_slp_input len)). Proof. apply vec_snds, slp_input_s. Qed.
Lemma vslp_output_s : snds (r_vec r_slp_output) (Forall slp_output_value) (f_list (doc_slp_output len)). Proof. apply vec_snds, slp_output_s. Qed.
Lemma slp_tx_s : snds r_slp_tx slp_tx_value (doc_slp_tx len).
Proof.
  intros j a Hf E. unfold r_slp_tx in E. ostep E l. apply struct_inv in Es. ostep E v. ostep E i. ostep E o. ostep E k. ostep E d. ostep E h. injection E as <-.
  sfield i32_s Es Hf Es0. sfield vslp_input_s Es Hf Es1. sfield vslp_output_s Es Hf Es2. sfield u32_s Es Hf Es3. sfield data_s Es Hf Es4. sfield (hash_snds 32) Es Hf Es5.
  split; [split; [exact Va|split; [exact Va0|split; [exact Va1|split; [exact Va2|split; [exact Va3|exact Va4]]]]]|]. exists l. repeat (split; [assumption|]). assumption.
Qed.
Lemma utxo_s : snds r_slp_utxo utxo_value doc_slp_utxo.
Proof.
  intros j a Hf E. unfold r_slp_utxo in E. ostep E l. apply struct_inv in Es. ostep E u. ostep E h. ostep E r. injection E as <-.
  sfield unsigned_s Es Hf Es0. sfield token_s Es Hf Es1. sfield data_s Es Hf Es2. split; [split; [exact Va|split; [exact Va0|exact Va1]]|]. exists l. auto.
Qed.
Lemma vu8_s : snds (r_vec r_u8) (Forall byte_ok) (f_list f_u8). Proof. apply vec_snds, u8_s. Qed.
Lemma meta_s : snds r_token_meta meta_value doc_token_meta.
Proof.
  intros j m Hf E. unfold r_token_meta in E. ostep E l. apply struct_inv in Es. ostep E a. ostep E b. ostep E c. ostep E d. ostep E e. ostep E f. injection E as <-.
  sfield str_s Es Hf Es0. sfield str_s Es Hf Es1. sfield str_s Es Hf Es2. sfield vu8_s Es Hf Es3. sfield u8_s Es Hf Es4. sfield ttype_s Es Hf Es5.
  split; [split; [exact Va2|exact Va3]|]. exists l. repeat (split; [assumption|]). assumption.
Qed.

(* ---------- panics ---------- *)
Ltac db := repeat first [exact hash_calm|exact outpoint_calm|exact script_calm|exact bytes_calm|exact flags_calm|apply enum_calm|assumption|apply opt_calm|apply vec_calm|apply of_calm].
Lemma input_calm : calm r_input. Proof. unfold r_input. calms ltac:(db). Qed.
Lemma output_calm : calm r_output. Proof. unfold r_output. calms ltac:(db). Qed.
Lemma unhashed_calm : calm r_unhashed_tx.
Proof. pose proof input_calm. pose proof output_calm. unfold r_unhashed_tx. calms ltac:(db). Qed.
Lemma tx_calm : calm r_tx. Proof. pose proof unhashed_calm. unfold r_tx. calms ltac:(db). Qed.
Lemma unsigned_calm : calm r_unsigned_input. Proof. unfold r_unsigned_input. calms ltac:(db). Qed.
Lemma token_calm : calm r_token. Proof. unfold r_token. calms ltac:(db). Qed.
Lemma data_calm : calm r_slp_data. Proof. unfold r_slp_data. calms ltac:(db). Qed.
Lemma slp_input_calm : calm r_slp_input. Proof. pose proof input_calm. pose proof token_calm. unfold r_slp_input. calms ltac:(db). Qed.
Lemma slp_output_calm : calm r_slp_output. Proof. pose proof output_calm. pose proof token_calm. unfold r_slp_output. calms ltac:(db). Qed.
Lemma slp_tx_calm : calm r_slp_tx. Proof. pose proof slp_input_calm. pose proof slp_output_calm. pose proof data_calm. unfold r_slp_tx. calms ltac:(db). Qed.
Lemma utxo_calm : calm r_slp_utxo. Proof. pose proof unsigned_calm. pose proof data_calm. pose proof token_calm. unfold r_slp_utxo. calms ltac:(db). Qed.
Lemma meta_calm j : r_token_meta j <> Panic.
Proof.
  assert (forall A (f : json -> option A) x, r_of f x <> Panic) as Hof by (intros A f x; unfold r_of; destruct (f x); discriminate).
  assert (forall x, r_vec r_u8 x <> Panic) as Hv.
  { intros x E. unfold r_vec in E. destruct x as [| | | |l|]; try discriminate. induction l as [|w l IH]; [discriminate|]. cbn in E. destruct (r_u8 w) eqn:F; cbn [obind] in E; try discriminate; [|exact (Hof _ _ _ F)].
    destruct (omap r_u8 l) eqn:G; cbn [obind] in E; try discriminate. auto. }
  assert (forall x, r_enum token_type_names x <> Panic) as He.
  { intros x E. unfold r_enum in E. destruct x as [| | |s| |l]; try discriminate; [destruct (find _ token_type_names); discriminate|]. destruct l as [|[s [| | | | |]] [|? ?]]; try discriminate; destruct (find _ token_type_names); discriminate. }
  assert (forall A (r : jreader A), (forall x, r x <> Panic) -> forall x, checks r x <> Panic) as Hc by (intros A r H x E; unfold checks in E; specialize (H x); destruct (r x); [discriminate|discriminate|congruence]).
  assert (forall A k (r : jreader A) l, (forall x, r x <> Panic) -> r_field k r l <> Panic) as Hf by (intros A k r l H E; unfold r_field in E; destruct (keys_named k l) as [|w [|? ?]]; try discriminate; exact (H w E)).
  assert (forall fields, Forall (fun p => forall x, snd p x <> Panic) fields -> forall x, r_struct fields x <> Panic) as Hs.
  { intros fields HF x E. destruct x as [| | | |vs|l0]; cbn [r_struct] in E; try discriminate.
    - destruct (visit_seq fields vs) eqn:G; cbn [obind] in E; try discriminate. clear E. revert vs G. induction HF as [|[k f] fs H _ IH]; intros [|v vs] G; try discriminate.
      cbn [visit_seq] in G. destruct (f v) eqn:F; cbn [obind] in G; try discriminate; [eauto|]. exact (H v F).
    - destruct (visit_map fields [] l0) eqn:G; cbn [obind] in E; try discriminate. clear E. revert G. generalize (@nil string). induction l0 as [|[k v] r IH]; intros seen G; [discriminate|].
      cbn [visit_map] in G. destruct (find_field k fields) as [f|] eqn:F; [|eauto]. destruct (existsb _ seen); [discriminate|]. destruct (f v) eqn:Fv; cbn [obind] in G; try discriminate; [eauto|].
      apply find_in in F. rewrite Forall_forall in HF. exact (HF _ F v Fv). }
  intros E. unfold r_token_meta in E. match type of E with obind (r_struct ?fs j) _ = _ => destruct (r_struct fs j) as [l| |] eqn:M end; cbn [obind] in E; [|discriminate|].
  - repeat (match type of E with obind (r_field ?k ?r l) _ = _ => let F := fresh "F" in destruct (r_field k r l) eqn:F; cbn [obind] in E; [|discriminate|revert F; apply Hf; first [exact Hv|exact He|apply Hof]] end). discriminate.
  - revert M. apply Hs. repeat (apply Forall_cons; [apply Hc; first [exact Hv|exact He|apply Hof]|]). apply Forall_nil.
Qed.

(* ---------- writing ---------- *)
Ltac wstep L V := let j := fresh "j" in let e := fresh "Ew" in let d := fresh "Dw" in destruct (L _ V) as (j & e & d); rewrite e; cbn [obind].
Ltac wfin := eexists; split; [reflexivity|]; eexists; split; [left; reflexivity|].
Ltac fh H := split; [eapply field_here; [reflexivity|exact H]|].
Ltac fl H := eapply field_here; [reflexivity|exact H].
Lemma j_flags_list f : Forall u32_ok f -> f_list f_flags (j_vec j_flags f) f.
Proof. intros H. exists (map j_flags f). split; [reflexivity|]. induction H; constructor; auto. now apply flags_n. Qed.
Lemma input_w : wrs w_input full_input_value (doc_input written).
Proof.
  intros a ((V1 & V2 & V3) & V4 & V5 & V6). unfold w_input. wstep outpoint_w V1. wstep script_wrs V2. wstep (opt_wrs _ _ _ (script_nn written) script_wrs) V4. wfin.
  fh Dw. fh Dw0. fh (u32_n _ V3). split; [eapply opt_here; [reflexivity|exact Dw1]|].
  split; [eapply opt_here; [reflexivity|]; apply j_opt_nullable; [discriminate|]; destruct (in_value a); [now apply u64_n|exact I]|].
  split; [eapply opt_here; [reflexivity|]; apply j_opt_nullable; [discriminate|]; destruct (in_is_p2sh a); [reflexivity|exact I]|].
  eapply opt_here; [reflexivity|]. apply j_opt_nullable; [discriminate|]. destruct (in_sig_hash_flags a); [now apply j_flags_list|exact I].
Qed.
Lemma output_w : wrs w_output output_value (doc_output written).
Proof. intros a (V1 & V2). unfold w_output. wstep script_wrs V2. wfin. fh (u64_n _ V1). fl Dw. Qed.
Lemma unhashed_w : wrs w_unhashed_tx full_tx_value (doc_unhashed_tx written).
Proof.
  intros a (V1 & V2 & V3 & V4). unfold w_unhashed_tx. wstep (vec_wrs _ _ _ input_w) V2. wstep (vec_wrs _ _ _ output_w) V3. wfin. fh (i32_n _ V1). fh Dw. fh Dw0. fl (u32_n _ V4).
Qed.
Lemma tx_w : wrs w_tx hashed_tx_value (doc_tx written).
Proof. intros a (V1 & V2 & V3). unfold w_tx. wstep unhashed_w V1. wstep (hash_wrs 32) V2. destruct (bytes_wrs _ V3) as (jr & Er & Dr). rewrite Er. cbn [obind]. wfin. fh Dw. fh Dw0. fl Dr. Qed.
Lemma unsigned_w : wrs w_unsigned_input unsigned_value doc_unsigned_input.
Proof. intros a (V1 & V2 & V3). unfold w_unsigned_input. wstep outpoint_w V1. wfin. fh Dw. fh (u32_n _ V2). fl (u64_n _ V3). Qed.
Lemma token_w : wrs w_token token_value doc_token.
Proof.
  intros a V. unfold w_token. wfin. fh (u64_n _ V). split; [eapply field_here; [reflexivity|reflexivity]|]. eapply field_here; [reflexivity|]. left. reflexivity.
Qed.
Lemma data_nn : nn doc_slp_data. Proof. intros a (l & [H|(vs & H & _)] & _); discriminate. Qed.
Lemma data_w : wrs w_slp_data data_value doc_slp_data.
Proof. intros a V. unfold w_slp_data. wstep (hash_wrs 32) V. wfin. fl Dw. Qed.
Lemma slp_input_w : wrs w_slp_input slp_input_value (doc_slp_input written).
Proof. intros a (V1 & V2 & V3 & V4). unfold w_slp_input. wstep token_w V2. wstep input_w V3. wstep script_wrs V4. wfin. fh (u64_n _ V1). fh Dw. fh Dw0. fl Dw1. Qed.
Lemma slp_output_w : wrs w_slp_output slp_output_value (doc_slp_output written).
Proof. intros a (V1 & V2). unfold w_slp_output. wstep token_w V1. wstep output_w V2. wfin. fh Dw. fl Dw0. Qed.
Lemma slp_tx_w : wrs w_slp_tx slp_tx_value (doc_slp_tx written).
Proof.
  intros a (V1 & V2 & V3 & V4 & V5 & V6). unfold w_slp_tx. wstep (vec_wrs _ _ _ slp_input_w) V2. wstep (vec_wrs _ _ _ slp_output_w) V3. wstep (opt_wrs _ _ _ data_nn data_w) V5. wstep (hash_wrs 32) V6. wfin.
  fh (i32_n _ V1). fh Dw. fh Dw0. fh (u32_n _ V4). split; [eapply opt_here; [reflexivity|exact Dw1]|]. fl Dw2.
Qed.
Lemma utxo_w : wrs w_slp_utxo utxo_value doc_slp_utxo.
Proof.
  intros a (V1 & V2 & V3). unfold w_slp_utxo. wstep unsigned_w V1. wstep token_w V2. wstep (opt_wrs _ _ _ data_nn data_w) V3. wfin. fh Dw. fh Dw0. eapply opt_here; [reflexivity|exact Dw1].
Qed.
Lemma meta_w : wrs w_token_meta meta_value doc_token_meta.
Proof.
  intros a (V1 & V2). unfold w_token_meta. wfin. do 3 (split; [eapply field_here; [reflexivity|reflexivity]|]).
  split; [eapply field_here; [reflexivity|]; exists (map JNum (tm_document_hash a)); split; [reflexivity|]; induction V1; constructor; auto; now apply u8_n|].
  fh (u8_n _ V2). eapply field_here; [reflexivity|]. left. reflexivity.
Qed.
