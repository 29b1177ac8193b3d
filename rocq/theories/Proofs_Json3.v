(** Lemmas about reading JSON tables of unknown origin. *)
From Verif Require Import Base BaseLemmas Model_Integer Spec_Integer Proofs_Integer Model_ByteArray Proofs_ByteArray Model_Opcode Model_Script Proofs_Script Model_Code Model_Json Spec_Json Proofs_Json Proofs_Json2.
Local Open Scope Z_scope.

Section R.
Variable dec : string -> option (list Z).
Notation cinv := (cinv dec).

(** ** more fuel does not change a result *)
Definition le_reader {A B} (g h : B -> reader A) : Prop := forall b d r, g b d = Some r -> h b d = Some r.
Lemma le_refl {A B} (g : B -> reader A) : le_reader g g. Proof. intros b d r H. exact H. Qed.
Lemma le_bind {A B} (r s : reader A) (f g : A -> reader B) : (forall d x, r d = Some x -> s d = Some x) -> le_reader f g -> forall d x, rbind r f d = Some x -> rbind s g d = Some x.
Proof.
  intros H1 H2 d x. unfold rbind. destruct (r d) as [[[a d']|e|]|] eqn:E; try discriminate; rewrite (H1 _ _ E); auto.
Qed.
Lemma le_map {A B} (f g : A -> reader B) : le_reader f g -> le_reader (rmap f) (rmap g).
Proof.
  intros H l. induction l as [|a l IH]; intros d r; cbn [rmap]; [auto|]. apply le_bind; [apply H|]. intros y. apply le_bind; [apply IH|]. apply le_refl.
Qed.
Lemma le_option {A B} (f g : A -> reader B) : le_reader f g -> le_reader (roption f) (roption g).
Proof. intros H [a|] d r; cbn [roption]; [|auto]. apply le_bind; [apply H|apply le_refl]. Qed.
Lemma le_array n m : (n <= m)%nat -> le_reader (get_byte_array dec n) (get_byte_array dec m).
Proof.
  revert m. induction n as [|n IH]; intros [|m] H idx d r; try discriminate; [lia|]. cbn [get_byte_array]. destruct (nth_error (jd_byte_arrays d) idx) as [j|]; [|auto].
  apply le_bind; [|apply le_refl]. intros d0 x. apply le_option, le_map, IH. lia.
Qed.
Lemma le_op n m : (n <= m)%nat -> le_reader (to_op dec n) (to_op dec m).
Proof. intros H [c|c|i b|b|i] d r; cbn [to_op]; auto. apply le_bind; [now apply le_array|apply le_refl]. Qed.
Lemma le_tagged n m : (n <= m)%nat -> le_reader (to_tagged_op dec n) (to_tagged_op dec m).
Proof. intros H t d r. unfold to_tagged_op. apply le_bind; [now apply le_op|apply le_refl]. Qed.
Lemma le_input n m : (n <= m)%nat -> le_reader (to_input dec n) (to_input dec m).
Proof.
  intros H t d r. unfold to_input. apply le_bind; [now apply le_array|]. intros a. apply le_bind; [auto|]. intros h. apply le_bind; [now apply le_map, le_tagged|]. intros s.
  apply le_bind; [now apply le_option, le_map, le_tagged|apply le_refl].
Qed.
Lemma le_output n m : (n <= m)%nat -> le_reader (to_output dec n) (to_output dec m).
Proof. intros H t d r. unfold to_output. apply le_bind; [now apply le_map, le_tagged|apply le_refl]. Qed.
Lemma make_tx_more n m j r : (n <= m)%nat -> json_make_tx dec n j = Some r -> json_make_tx dec m j = Some r.
Proof.
  intros H. unfold json_make_tx. destruct (rbind (rmap (to_input dec n) (jx_inputs j)) _ _) as [x|] eqn:E; [|discriminate]. intros X. 
  erewrite le_bind; [exact X| | |exact E].
  - intros d y. now apply le_map, le_input.
  - intros ins. intros d y. apply le_bind; [now apply le_map, le_output|apply le_refl].
Qed.
Lemma to_tx_more n m j r : (n <= m)%nat -> json_to_tx dec n j = Some r -> json_to_tx dec m j = Some r.
Proof. intros H. unfold json_to_tx. destruct (d_tx j); [|auto]. now apply make_tx_more. Qed.

(** ** a reader computes the meaning *)
Definition sound {A B} (g : B -> reader A) (R : json_data -> B -> A -> Prop) : Prop :=
  forall d b a d', cinv d -> g b d = Some (Ok (a, d')) -> same d d' /\ cinv d' /\ R d b a.
Definition stable {A B} (R : json_data -> B -> A -> Prop) : Prop := forall d d' b a, same d d' -> R d' b a -> R d b a.
Lemma bind_inv {A B} (r : reader A) (f : A -> reader B) d x : rbind r f d = Some (Ok x) -> exists a d', r d = Some (Ok (a, d')) /\ f a d' = Some (Ok x).
Proof. unfold rbind. destruct (r d) as [[[a d']|e|]|]; try discriminate. eauto. Qed.
Lemma sound_map {A B} (g : B -> reader A) R : stable R -> sound g R -> sound (rmap g) (fun d => Forall2 (R d)).
Proof.
  intros HS H d l. revert d. induction l as [|b l IH]; intros d a d' C E; cbn [rmap] in E.
  - injection E as <- <-. split; [apply same_refl|]. auto.
  - apply bind_inv in E. destruct E as (y & d1 & E1 & E). apply bind_inv in E. destruct E as (ys & d2 & E2 & E). injection E as <- <-.
    destruct (H _ _ _ _ C E1) as (S1 & C1 & R1). destruct (IH _ _ _ C1 E2) as (S2 & C2 & R2). split; [eapply same_trans; eassumption|]. split; [exact C2|]. constructor; [exact R1|].
    clear - S1 R2 HS. induction R2; constructor; [eapply HS; eassumption|assumption].
Qed.
Lemma sound_option {A B} (g : B -> reader A) R : sound g R -> sound (roption g) (fun d => opt_rel (R d)).
Proof.
  intros H d [b|] a d' C E; cbn [roption] in E.
  - apply bind_inv in E. destruct E as (y & d1 & E1 & E). injection E as <- <-. apply (H _ _ _ _ C E1).
  - injection E as <- <-. split; [apply same_refl|]. split; [exact C|exact I].
Qed.
Lemma sound_string : sound get_string string_means.
Proof. intros d i s d' C. unfold get_string, string_means. destruct (nth_error (jd_strings d) i) eqn:E; [|discriminate]. intros X. injection X as -> <-. split; [apply same_refl|auto]. Qed.
Lemma sound_data : sound (get_data dec) (fun d i b => exists s, nth_error (jd_data_b64 d) i = Some s /\ dec s = Some b).
Proof.
  intros d i b d' C. unfold get_data. destruct (find_right i (jd_data_indices d)) as [x|] eqn:E.
  - intros X. injection X as -> <-. apply find_right_in in E. split; [apply same_refl|]. split; [exact C|]. exact (C _ _ E).
  - destruct (nth_error (jd_data_b64 d) i) as [s|] eqn:En; [|discriminate]. destruct (dec s) as [x|] eqn:Ed; [|discriminate]. intros X. injection X as -> <-. split; [repeat split|]. split; [|eauto].
    intros b' k Hin. cbn [jd_data_indices jd_data_b64] in *. unfold bimap_insert in Hin. destruct Hin as [Hin|Hin]; [injection Hin as <- <-; eauto|]. apply filter_In in Hin. apply C. tauto.
Qed.
Lemma stable_string : stable string_means. Proof. intros d d' i s (_ & _ & H). unfold string_means. now rewrite H. Qed.
Lemma stable_opt {A B} (R : json_data -> B -> A -> Prop) : stable R -> stable (fun d => opt_rel (R d)).
Proof. intros H d d' [b|] [a|] S; cbn; auto. now apply H. Qed.
Lemma stable_list {A B} (R : json_data -> B -> A -> Prop) : stable R -> stable (fun d => Forall2 (R d)).
Proof. intros H d d' l l' S F. induction F; constructor; [eapply H; eassumption|assumption]. Qed.
(** the meaning of an array, with the standard list relation *)
Lemma array_means_eq d data name f preimage idx : array_means dec d (BA data name f preimage) idx <->
  exists j s, nth_error (jd_byte_arrays d) idx = Some j /\ nth_error (jd_data_b64 d) (jb_data j) = Some s /\ dec s = Some data /\
      opt_rel (string_means d) (jb_name j) name /\ jb_function j = f /\ opt_rel (Forall2 (fun i a => array_means dec d a i)) (jb_preimages j) preimage.
Proof.
  cbn [array_means]. assert (forall is ps, (fix go (is : list nat) (ps : list barray) {struct ps} : Prop := match is, ps with [], [] => True | i :: is, p :: ps => array_means dec d p i /\ go is ps | _, _ => False end) is ps <->
    Forall2 (fun i a => array_means dec d a i) is ps) as H.
  { intros is ps. revert is. induction ps as [|p ps IH]; intros [|i is]; (split; [intros X|intros X; inversion X; subst]); try destruct X; constructor; try assumption; now apply IH. }
  split; intros (j & s & H1 & H2 & H3 & H4 & H5 & H6); exists j, s; repeat (split; [assumption|]); destruct (jb_preimages j), preimage; cbn [opt_rel] in *; auto; now apply H.
Qed.
Definition arrayR (d : json_data) (i : nat) (a : barray) : Prop := array_means dec d a i.
Lemma stable_array : stable arrayR.
Proof.
  intros d d' i a (S1 & S2 & S3). revert i. unfold arrayR. induction a as [data name f|data name f ps IH] using barray_ind'; intros i; rewrite !array_means_eq; unfold string_means; rewrite S1, S2, S3; [auto|].
  intros (j & s & H1 & H2 & H3 & H4 & H5 & H6). exists j, s. repeat (split; [assumption|]). destruct (jb_preimages j) as [is|]; cbn [opt_rel] in *; [|exact H6].
  clear - IH H6. induction H6; constructor; inversion IH; subst; auto.
Qed.
Lemma sound_array n : sound (get_byte_array dec n) arrayR.
Proof.
  induction n as [|n IH]; intros d idx a d' C E; [discriminate|]. cbn [get_byte_array] in E. destruct (nth_error (jd_byte_arrays d) idx) as [j|] eqn:Ej; [|discriminate].
  apply bind_inv in E. destruct E as (ps & d1 & E1 & E). apply bind_inv in E. destruct E as (data & d2 & E2 & E). apply bind_inv in E. destruct E as (name & d3 & E3 & E). injection E as <- <-.
  destruct (sound_option _ _ (sound_map _ _ stable_array IH) _ _ _ _ C E1) as (S1 & C1 & R1). destruct (sound_data _ _ _ _ C1 E2) as (S2 & C2 & s & R2 & R2').
  destruct (sound_option _ _ sound_string _ _ _ _ C2 E3) as (S3 & C3 & R3).
  split; [eapply same_trans; [exact S1|]; eapply same_trans; eassumption|]. split; [exact C3|]. unfold arrayR. rewrite array_means_eq. exists j, s. split; [exact Ej|]. split; [destruct S1 as (S1 & _ & _); now rewrite <- S1|].
  split; [exact R2'|]. split; [|split; [reflexivity|exact R1]]. eapply (stable_opt _ stable_string); [|exact R3]. eapply same_trans; eassumption.
Qed.
Lemma integer_new_iff i v : integer_new i = Ok v <-> script_int i /\ v = i.
Proof. split; [intros H; apply integer_new_inv in H; destruct H as [-> H]; auto|intros [H ->]; now apply integer_new_ok]. Qed.
Lemma sound_op n : sound (to_op dec n) (op_means dec).
Proof.
  intros d [c|c|i m|b|i] o d' C E; cbn [to_op] in E.
  - destruct (opcode_from_u8 c) eqn:Ec; injection E as <- <-; (split; [apply same_refl|]); (split; [exact C|]); cbn [op_means]; auto.
  - injection E as <- <-. split; [apply same_refl|]. split; [exact C|reflexivity].
  - apply bind_inv in E. destruct E as (a & d1 & E1 & E). injection E as <- <-. destruct (sound_array _ _ _ _ _ C E1) as (S1 & C1 & R1). split; [exact S1|]. split; [exact C1|]. split; [exact R1|reflexivity].
  - injection E as <- <-. split; [apply same_refl|]. split; [exact C|reflexivity].
  - destruct (integer_new i) as [v| |] eqn:Ei; try discriminate. injection E as <- <-. apply integer_new_iff in Ei. destruct Ei as [Hi ->]. split; [apply same_refl|]. split; [exact C|]. split; [exact Hi|reflexivity].
Qed.
Lemma stable_op : stable (op_means dec).
Proof. intros d d' [c|c|i m|b|i] [] S; cbn [op_means]; auto. intros [H ->]. split; [|reflexivity]. eapply stable_array; eassumption. Qed.
Definition codeR (d : json_data) (x : Z * nat) (y : Z * string) : Prop := fst x = fst y /\ string_means d (snd x) (snd y).
Lemma stable_code : stable codeR. Proof. intros d d' x y S [H1 H2]. split; [exact H1|]. eapply stable_string; eassumption. Qed.
Lemma sound_code : sound (fun p : Z * nat => rbind (get_string (snd p)) (fun s => rret (fst p, s))) codeR.
Proof.
  intros d [w i] a d' C E. apply bind_inv in E. destruct E as (s & d1 & E1 & E). injection E as <- <-. destruct (sound_string _ _ _ _ C E1) as (S1 & C1 & R1). split; [exact S1|]. split; [exact C1|]. split; [reflexivity|exact R1].
Qed.
Lemma stable_names : stable names_mean. Proof. apply stable_opt, stable_list, stable_opt, stable_string. Qed.
Lemma sound_names : sound (roption (rmap (roption get_string))) names_mean.
Proof. apply (sound_option _ (fun d => Forall2 (opt_rel (string_means d)))). apply (sound_map _ (fun d => opt_rel (string_means d))); [apply stable_opt, stable_string|]. apply sound_option, sound_string. Qed.
Lemma sound_tagged n : sound (to_tagged_op dec n) (tagged_means dec).
Proof.
  intros d t a d' C E. unfold to_tagged_op in E.
  apply bind_inv in E. destruct E as (o & d1 & E1 & E). destruct (sound_op _ _ _ _ _ C E1) as (S1 & C1 & R1).
  apply bind_inv in E. destruct E as (fl & d2 & E2 & E). destruct (sound_string _ _ _ _ C1 E2) as (S2 & C2 & R2). pose proof (same_trans _ _ _ S1 S2) as T2.
  apply bind_inv in E. destruct E as (co & d3 & E3 & E). destruct (sound_map _ _ stable_code sound_code _ _ _ _ C2 E3) as (S3 & C3 & R3). pose proof (same_trans _ _ _ T2 S3) as T3.
  apply bind_inv in E. destruct E as (nm & d4 & E4 & E). destruct (sound_names _ _ _ _ C3 E4) as (S4 & C4 & R4). pose proof (same_trans _ _ _ T3 S4) as T4.
  apply bind_inv in E. destruct E as (an & d5 & E5 & E). destruct (sound_names _ _ _ _ C4 E5) as (S5 & C5 & R5). pose proof (same_trans _ _ _ T4 S5) as T5.
  injection E as <- <-. split; [exact T5|]. split; [exact C5|]. split; [exact R1|]. split; [exact (stable_string _ _ _ _ S1 R2)|]. split; [reflexivity|]. split; [reflexivity|].
  split; [exact (stable_list _ stable_code _ _ _ _ T2 R3)|]. split; [exact (stable_names _ _ _ _ T3 R4)|exact (stable_names _ _ _ _ T4 R5)].
Qed.
Lemma stable_tagged : stable (tagged_means dec).
Proof.
  intros d d' j t S (A & B & X & D & E & F & G). split; [eapply stable_op; eassumption|]. split; [eapply stable_string; eassumption|]. split; [exact X|]. split; [exact D|]. split; [exact (stable_list _ stable_code _ _ _ _ S E)|].
  split; eapply stable_names; eassumption.
Qed.
Lemma sound_script n : sound (to_script dec n) (script_means dec). Proof. apply sound_map; [apply stable_tagged|apply sound_tagged]. Qed.
Lemma stable_script : stable (script_means dec). Proof. apply stable_list, stable_tagged. Qed.
Lemma sound_input n : sound (to_input dec n) (input_means dec).
Proof.
  intros d t a d' C E. unfold to_input in E.
  apply bind_inv in E. destruct E as (h & d1 & E1 & E). destruct (sound_array _ _ _ _ _ C E1) as (S1 & C1 & R1).
  unfold fixed_from_byte_array in E. destruct (32 =? ba_len h) eqn:EL; [|unfold rbind at 1, rerr in E; discriminate]. unfold rbind at 1, rret at 1 in E. apply Z.eqb_eq in EL. symmetry in EL.
  apply bind_inv in E. destruct E as (sc & d2 & E2 & E). destruct (sound_script _ _ _ _ _ C1 E2) as (S2 & C2 & R2). pose proof (same_trans _ _ _ S1 S2) as T2.
  apply bind_inv in E. destruct E as (lo & d3 & E3 & E). destruct (sound_option _ _ (sound_script n) _ _ _ _ C2 E3) as (S3 & C3 & R3). pose proof (same_trans _ _ _ T2 S3) as T3.
  injection E as <- <-. split; [exact T3|]. split; [exact C3|]. unfold input_means. cbn [in_prev_out op_tx_hash op_vout in_script in_sequence in_lock_script in_value in_is_p2sh in_sig_hash_flags].
  split; [exact R1|]. split; [exact EL|]. split; [reflexivity|]. split; [exact (stable_script _ _ _ _ S1 R2)|]. split; [reflexivity|]. split; [exact (stable_opt _ stable_script _ _ _ _ T2 R3)|]. auto.
Qed.
Lemma stable_input : stable (input_means dec).
Proof.
  intros d d' j t S (A & B & X & D & E & F & G). split; [eapply stable_array; eassumption|]. split; [exact B|]. split; [exact X|]. split; [eapply stable_script; eassumption|]. split; [exact E|].
  split; [eapply (stable_opt _ stable_script); eassumption|exact G].
Qed.
Lemma sound_output n : sound (to_output dec n) (output_means dec).
Proof.
  intros d t a d' C E. unfold to_output in E. apply bind_inv in E. destruct E as (sc & d1 & E1 & E). destruct (sound_script _ _ _ _ _ C E1) as (S1 & C1 & R1). injection E as <- <-. split; [exact S1|]. split; [exact C1|]. split; [reflexivity|exact R1].
Qed.
Lemma stable_output : stable (output_means dec). Proof. intros d d' j o S [A B]. split; [exact A|]. eapply stable_script; eassumption. Qed.
Lemma make_tx_sound n j t : cinv (jx_data j) -> json_make_tx dec n j = Some (Ok t) -> tx_means dec j t.
Proof.
  intros C. unfold json_make_tx. destruct (rbind _ _ _) as [[[x d']|e|]|] eqn:E; try discriminate. cbn [obind]. intros X. injection X as ->.
  apply bind_inv in E. destruct E as (ins & d1 & E1 & E). apply bind_inv in E. destruct E as (outs & d2 & E2 & E). injection E as <- <-.
  destruct (sound_map _ _ stable_input (sound_input n) _ _ _ _ C E1) as (S1 & C1 & R1). destruct (sound_map _ _ stable_output (sound_output n) _ _ _ _ C1 E2) as (S2 & C2 & R2).
  split; [reflexivity|]. split; [exact R1|]. split; [|reflexivity]. eapply (stable_list _ stable_output); eassumption.
Qed.
Lemma d_field_inv {A} k (f : json -> option A) v x : d_field k f v = Some x -> exists w, f w = Some x.
Proof. unfold d_field. destruct v; try discriminate. destruct (keys_named k l) as [|w [|]]; try discriminate. eauto. Qed.
Lemma d_data_empty v d : d_data v = Some d -> jd_data_indices d = [].
Proof.
  unfold d_data. cbv zeta. generalize (struct_of ["data_b64"; "byte_arrays"; "strings"]%string v). clear v. intros v. generalize (d_field "data_b64" (d_vec d_str) v), (d_field "byte_arrays" (d_vec d_byte_array) v), (d_field "strings" (d_vec d_str) v). intros [x|] [y|] [z|]; try discriminate. intros E. injection E as <-. reflexivity.
Qed.
Lemma d_tx_empty_cache v j : d_tx v = Some j -> cinv (jx_data j).
Proof.
  unfold d_tx. cbv zeta. generalize (struct_of ["data"; "version"; "inputs"; "outputs"; "lock_time"]%string v). clear v. intros v. generalize (d_field_inv "data" d_data v). generalize (d_field "data" d_data v), (d_field "version" d_i32 v), (d_field "inputs" (d_vec d_input) v), (d_field "outputs" (d_vec d_output) v), (d_field "lock_time" d_u32 v).
  intros [d|] [x|] [y|] [z|] [w|] H; try discriminate. intros X. injection X as <-. cbn [jx_data]. destruct (H d eq_refl) as (u & Hu). apply d_data_empty in Hu. intros b i. rewrite Hu. intros [].
Qed.

(** ** everything that has a meaning is read *)
Definition complete {A B} (g : B -> reader A) (R : json_data -> B -> A -> Prop) (V : A -> Prop) : Prop :=
  forall d b a, cinv d -> V a -> R d b a -> exists d', g b d = Some (Ok (a, d')) /\ same d d' /\ cinv d'.
Lemma same_sym d d' : same d d' -> same d' d. Proof. intros (A & B & C). repeat split; congruence. Qed.
Lemma complete_map {A B} (g : B -> reader A) R V : stable R -> complete g R V -> complete (rmap g) (fun d => Forall2 (R d)) (Forall V).
Proof.
  intros HS H d l l' C HV HR. revert d C HV HR. revert l'. induction l as [|b l IH]; intros l' d C HV HR; inversion HR; subst; cbn [rmap].
  - exists d. split; [reflexivity|]. split; [apply same_refl|exact C].
  - inversion HV; subst. edestruct (H d b) as (d1 & E1 & S1 & C1); [eassumption..|]. rewrite (rbind_ok _ _ _ _ _ E1). edestruct (IH l'0 d1) as (d2 & E2 & S2 & C2); [exact C1|assumption| |].
    { eapply (stable_list _ HS); [apply same_sym; eassumption|assumption]. }
    rewrite (rbind_ok _ _ _ _ _ E2). exists d2. split; [reflexivity|]. split; [eapply same_trans; eassumption|exact C2].
Qed.
Lemma complete_option {A B} (g : B -> reader A) R V : complete g R V -> complete (roption g) (fun d => opt_rel (R d)) (opt_all V).
Proof.
  intros H d [b|] [a|] C HV HR; try destruct HR; cbn [roption].
  - destruct (H d b a C HV HR) as (d1 & E1 & S1 & C1). rewrite (rbind_ok _ _ _ _ _ E1). exists d1. split; [reflexivity|auto].
  - exists d. split; [reflexivity|]. split; [apply same_refl|exact C].
Qed.
Lemma complete_string : complete get_string string_means (fun _ => True).
Proof. intros d i s C _ H. unfold get_string. rewrite H. exists d. split; [reflexivity|]. split; [apply same_refl|exact C]. Qed.
Lemma complete_data : complete (get_data dec) (fun d i b => exists s, nth_error (jd_data_b64 d) i = Some s /\ dec s = Some b) (fun _ => True).
Proof.
  intros d i b C _ (s & H1 & H2). assert (exists r, get_data dec i d = Some (Ok r)) as ([b' d'] & E).
  { unfold get_data. destruct (find_right i (jd_data_indices d)); [eauto|]. rewrite H1, H2. eauto. }
  destruct (sound_data _ _ _ _ C E) as (S & C' & s' & H3 & H4). assert (s' = s) as -> by congruence. assert (b' = b) as -> by congruence. eauto.
Qed.
Definition deepV (n : nat) (a : barray) : Prop := (depth a <= n)%nat.
Lemma deepV_preimages n data name f ps : deepV (S n) (BA data name f (Some ps)) -> Forall (deepV n) ps.
Proof.
  unfold deepV. cbn [depth]. intros HF. assert (HF' : ((fix go (l : list barray) : nat := match l with [] => O | x :: r => Nat.max (depth x) (go r) end) ps <= n)%nat) by lia. clear HF.
  induction ps as [|p ps IHp]; constructor; [lia|]. apply IHp. lia.
Qed.
Lemma complete_array n : complete (get_byte_array dec n) arrayR (deepV n).
Proof.
  induction n as [|n IH]; intros d idx a C HV HR; [destruct a; unfold deepV in HV; cbn [depth] in HV; lia|]. destruct a as [data name f ps]. unfold arrayR in HR. rewrite array_means_eq in HR. destruct HR as (j & s & H1 & H2 & H3 & H4 & H5 & H6).
  cbn [get_byte_array]. rewrite H1. edestruct (complete_option _ _ _ (complete_map _ _ _ stable_array IH) d (jb_preimages j) ps) as (d1 & E1 & S1 & C1); [exact C| |exact H6|].
  { destruct ps as [ps|]; [|exact I]. eapply deepV_preimages. exact HV. }
  rewrite (rbind_ok _ _ _ _ _ E1). edestruct (complete_data d1 (jb_data j) data) as (d2 & E2 & S2 & C2); [exact C1|exact I|exists s; split; [destruct S1 as (-> & _); exact H2|exact H3]|]. rewrite (rbind_ok _ _ _ _ _ E2).
  pose proof (same_trans _ _ _ S1 S2) as T2.
  edestruct (complete_option _ _ _ complete_string d2 (jb_name j) name) as (d3 & E3 & S3 & C3); [exact C2|destruct name; exact I|eapply (stable_opt _ stable_string); [apply same_sym; exact T2|exact H4]|].
  rewrite (rbind_ok _ _ _ _ _ E3). exists d3. subst f. split; [reflexivity|]. split; [eapply same_trans; eassumption|exact C3].
Qed.
Lemma complete_op n : complete (to_op dec n) (op_means dec) (op_fuel n).
Proof.
  intros d [c|c|i m|b|i] [o|o|a m'|b'|v] C HV HR; cbn [to_op op_means op_fuel] in *; try contradiction.
  - rewrite HR. exists d. split; [reflexivity|]. split; [apply same_refl|exact C].
  - destruct HR as [H ->]. rewrite H. exists d. split; [reflexivity|]. split; [apply same_refl|exact C].
  - subst. exists d. split; [reflexivity|]. split; [apply same_refl|exact C].
  - destruct HR as [H ->]. destruct (complete_array n d i a C HV H) as (d1 & E1 & S1 & C1). rewrite (rbind_ok _ _ _ _ _ E1). exists d1. split; [reflexivity|auto].
  - subst. exists d. split; [reflexivity|]. split; [apply same_refl|exact C].
  - destruct HR as [H ->]. rewrite (proj2 (integer_new_iff v v)) by (split; [assumption|congruence]). exists d. split; [reflexivity|]. split; [apply same_refl|exact C].
Qed.
Lemma complete_code : complete (fun p : Z * nat => rbind (get_string (snd p)) (fun s => rret (fst p, s))) codeR (fun _ => True).
Proof.
  intros d [w i] [w' s] C _ [H1 H2]. cbn [fst snd] in *. subst w'. destruct (complete_string d i s C I H2) as (d1 & E1 & S1 & C1). rewrite (rbind_ok _ _ _ _ _ E1). exists d1. split; [reflexivity|auto].
Qed.
Lemma all_true {A} (l : list A) : Forall (fun _ => True) l. Proof. apply Forall_forall. auto. Qed.
Lemma complete_names : complete (roption (rmap (roption get_string))) names_mean (fun _ => True).
Proof.
  intros d b a C _. apply (complete_option _ (fun d => Forall2 (opt_rel (string_means d))) (Forall (opt_all (fun _ => True)))); [|exact C|].
  - apply (complete_map _ (fun d => opt_rel (string_means d))); [apply stable_opt, stable_string|]. apply complete_option, complete_string.
  - destruct a as [l|]; [|exact I]. apply Forall_forall. intros [x|] _; exact I.
Qed.
Definition taggedV (n : nat) (t : tagged_op) : Prop := op_fuel n (t_op t).
Lemma complete_tagged n : complete (to_tagged_op dec n) (tagged_means dec) (taggedV n).
Proof.
  intros d j t C HV (A & B & X & D & E & F & G). unfold to_tagged_op.
  destruct (complete_op n d _ _ C HV A) as (d1 & E1 & S1 & C1). rewrite (rbind_ok _ _ _ _ _ E1).
  destruct (complete_string d1 _ _ C1 I (stable_string _ _ _ _ (same_sym _ _ S1) B)) as (d2 & E2 & S2 & C2). rewrite (rbind_ok _ _ _ _ _ E2). pose proof (same_trans _ _ _ S1 S2) as T2.
  destruct (complete_map _ _ _ stable_code complete_code d2 _ _ C2 (all_true _) (stable_list _ stable_code _ _ _ _ (same_sym _ _ T2) E)) as (d3 & E3 & S3 & C3). rewrite (rbind_ok _ _ _ _ _ E3). pose proof (same_trans _ _ _ T2 S3) as T3.
  destruct (complete_names d3 _ _ C3 I (stable_names _ _ _ _ (same_sym _ _ T3) F)) as (d4 & E4 & S4 & C4). rewrite (rbind_ok _ _ _ _ _ E4). pose proof (same_trans _ _ _ T3 S4) as T4.
  destruct (complete_names d4 _ _ C4 I (stable_names _ _ _ _ (same_sym _ _ T4) G)) as (d5 & E5 & S5 & C5). rewrite (rbind_ok _ _ _ _ _ E5). pose proof (same_trans _ _ _ T4 S5) as T5.
  exists d5. rewrite X, D. split; [destruct t; reflexivity|auto].
Qed.
Lemma complete_script n : complete (to_script dec n) (script_means dec) (Forall (taggedV n)). Proof. apply complete_map; [apply stable_tagged|apply complete_tagged]. Qed.
Definition inputV (n : nat) (i : tx_input) : Prop := deepV n (op_tx_hash (in_prev_out i)) /\ Forall (taggedV n) (in_script i) /\ opt_all (Forall (taggedV n)) (in_lock_script i).
Definition outputV (n : nat) (o : tx_output) : Prop := Forall (taggedV n) (out_script o).
Lemma complete_input n : complete (to_input dec n) (input_means dec) (inputV n).
Proof.
  intros d j i C (V1 & V2 & V3) (A & B & X & D & E & F & G1 & G2 & G3). unfold to_input.
  destruct (complete_array n d _ _ C V1 A) as (d1 & E1 & S1 & C1). rewrite (rbind_ok _ _ _ _ _ E1). unfold fixed_from_byte_array. rewrite (proj2 (Z.eqb_eq 32 _) (eq_sym B)). unfold rbind at 1, rret at 1.
  destruct (complete_script n d1 _ _ C1 V2 (stable_script _ _ _ _ (same_sym _ _ S1) D)) as (d2 & E2 & S2 & C2). rewrite (rbind_ok _ _ _ _ _ E2). pose proof (same_trans _ _ _ S1 S2) as T2.
  destruct (complete_option _ _ _ (complete_script n) d2 _ _ C2 V3 (stable_opt _ stable_script _ _ _ _ (same_sym _ _ T2) F)) as (d3 & E3 & S3 & C3). rewrite (rbind_ok _ _ _ _ _ E3). pose proof (same_trans _ _ _ T2 S3) as T3.
  exists d3. rewrite X, E, G1, G2, G3. split; [destruct i as [[] ? ? ? ? ? ?]; reflexivity|auto].
Qed.
Lemma complete_output n : complete (to_output dec n) (output_means dec) (outputV n).
Proof. intros d j o C V (A & B). unfold to_output. destruct (complete_script n d _ _ C V B) as (d1 & E1 & S1 & C1). rewrite (rbind_ok _ _ _ _ _ E1). exists d1. rewrite A. split; [destruct o; reflexivity|auto]. Qed.
Lemma taggedV_all l : exists n, forall m, (n <= m)%nat -> Forall (taggedV m) l.
Proof.
  induction l as [|t l (n & IH)]; [exists O; constructor|]. exists (Nat.max n (match t_op t with OPushArray a _ => depth a | _ => O end)). intros m Hm. constructor; [|apply IH; lia]. unfold taggedV. destruct (t_op t); cbn; auto. lia.
Qed.
Lemma make_tx_complete j t : cinv (jx_data j) -> tx_means dec j t -> exists n, forall m, (n <= m)%nat -> json_make_tx dec m j = Some (Ok t).
Proof.
  intros C (A & B & D & E).
  assert (exists n, forall m, (n <= m)%nat -> Forall (inputV m) (tx_inputs t)) as (n1 & N1).
  { clear. induction (tx_inputs t) as [|i l (n & IH)]; [exists O; constructor|]. destruct (taggedV_all (in_script i)) as (n1 & N1).
    assert (exists n, forall m, (n <= m)%nat -> opt_all (Forall (taggedV m)) (in_lock_script i)) as (n2 & N2) by (destruct (in_lock_script i) as [s|]; [apply taggedV_all|exists O; intros; exact I]).
    exists (Nat.max n (Nat.max (depth (op_tx_hash (in_prev_out i))) (Nat.max n1 n2))). intros m Hm. constructor; [|apply IH; lia]. split; [unfold deepV; lia|]. split; [apply N1; lia|apply N2; lia]. }
  assert (exists n, forall m, (n <= m)%nat -> Forall (outputV m) (tx_outputs t)) as (n2 & N2).
  { clear. induction (tx_outputs t) as [|i l (n & IH)]; [exists O; constructor|]. destruct (taggedV_all (out_script i)) as (n1 & N1). exists (Nat.max n n1). intros m Hm. constructor; [apply N1; lia|apply IH; lia]. }
  exists (Nat.max n1 n2). intros m Hm. unfold json_make_tx.
  destruct (complete_map _ _ _ stable_input (complete_input m) (jx_data j) _ _ C (N1 m ltac:(lia)) B) as (d1 & E1 & S1 & C1). rewrite (rbind_ok _ _ _ _ _ E1).
  destruct (complete_map _ _ _ stable_output (complete_output m) d1 _ _ C1 (N2 m ltac:(lia)) (stable_list _ stable_output _ _ _ _ (same_sym _ _ S1) D)) as (d2 & E2 & S2 & C2). rewrite (rbind_ok _ _ _ _ _ E2).
  unfold rret. cbn [obind]. rewrite A, E. now destruct t.
Qed.

(** ** acyclic tables: no panic, no divergence *)
Definition calm {A B} (g : B -> reader A) (D : json_data -> Prop) (V : B -> Prop) : Prop :=
  forall d b, D d -> V b -> exists r, g b d = Some r /\ r <> Panic /\ forall a d', r = Ok (a, d') -> D d'.
Lemma calm_bind {A B C} (g : B -> reader A) (D : json_data -> Prop) V (k : A -> reader C) b d : calm g D V -> D d -> V b ->
  (forall a d', D d' -> exists r, k a d' = Some r /\ r <> Panic /\ forall c d'', r = Ok (c, d'') -> D d'') ->
  exists r, rbind (g b) k d = Some r /\ r <> Panic /\ forall c d'', r = Ok (c, d'') -> D d''.
Proof.
  intros H Hd Hb Hk. destruct (H d b Hd Hb) as (r & E & N & P). unfold rbind. rewrite E. destruct r as [[a d']|e|].
  - apply Hk. now eapply P.
  - eexists. split; [reflexivity|]. split; discriminate.
  - congruence.
Qed.
Lemma calm_ret {A} (a : A) (D : json_data -> Prop) d : D d -> exists r, rret a d = Some r /\ r <> Panic /\ forall c d'', r = Ok (c, d'') -> D d''.
Proof. intros H. eexists. split; [reflexivity|]. split; [discriminate|]. intros c d'' E. injection E as <- <-. exact H. Qed.
Lemma calm_map {A B} (g : B -> reader A) D V : calm g D V -> calm (rmap g) D (Forall V).
Proof.
  intros H d l. revert d. induction l as [|b l IH]; intros d Hd HV; cbn [rmap]; [now apply calm_ret|]. inversion HV; subst.
  eapply calm_bind; [exact H|exact Hd|assumption|]. intros a d1 D1. eapply (calm_bind (rmap g) D (fun x => x = l)); [|exact D1|reflexivity|]; [intros d2 x D2 ->; now apply IH|]. intros. now apply calm_ret.
Qed.
Lemma calm_option {A B} (g : B -> reader A) D V : calm g D V -> calm (roption g) D (opt_all V).
Proof. intros H d [b|] Hd HV; cbn [roption]; [|now apply calm_ret]. eapply calm_bind; [exact H|exact Hd|exact HV|]. intros. now apply calm_ret. Qed.
Definition like (d0 : json_data) (d : json_data) : Prop := same d0 d.
Lemma calm_string d0 : calm get_string (like d0) (fun _ => True).
Proof. intros d i Hd _. unfold get_string. destruct (nth_error _ i); eexists; (split; [reflexivity|]); (split; [discriminate|]); intros a d' E; [injection E as <- <-; exact Hd|discriminate]. Qed.
Lemma calm_data d0 : calm (get_data dec) (like d0) (fun _ => True).
Proof.
  intros d i Hd _. unfold get_data. destruct (find_right i _); [eexists; split; [reflexivity|]; split; [discriminate|]; intros a d' E; injection E as <- <-; exact Hd|].
  destruct (nth_error _ i); [|eexists; split; [reflexivity|]; split; discriminate]. destruct (dec s); eexists; (split; [reflexivity|]); (split; [discriminate|]); intros a d' E; [|discriminate]. injection E as <- <-. eapply same_trans; [exact Hd|]. repeat split.
Qed.
Lemma calm_array d0 (rank : nat -> nat) (HR : forall idx p, refers d0 idx p -> (p < length (jd_byte_arrays d0))%nat /\ (rank p < rank idx)%nat) n :
  calm (get_byte_array dec n) (like d0) (fun idx => (idx < length (jd_byte_arrays d0))%nat /\ (rank idx < n)%nat).
Proof.
  induction n as [|n IH]; intros d idx Hd [H1 H2]; [lia|]. cbn [get_byte_array]. pose proof Hd as (_ & Ha & _). rewrite Ha. destruct (nth_error (jd_byte_arrays d0) idx) as [j|] eqn:Ej; [|apply nth_error_None in Ej; lia].
  eapply calm_bind; [apply calm_option, calm_map, IH|exact Hd| |].
  - destruct (jb_preimages j) as [l|] eqn:El; [|exact I]. cbn [opt_all]. apply Forall_forall. intros p Hp. destruct (HR idx p) as [R1 R2]; [exists j, l; auto|]. lia.
  - intros ps d1 D1. eapply calm_bind; [apply calm_data|exact D1|exact I|]. intros data d2 D2. eapply calm_bind; [apply calm_option, calm_string|exact D2|destruct (jb_name j); exact I|]. intros. now apply calm_ret.
Qed.
Section Calm.
Variable d0 : json_data.
Variable n : nat.
Variable V : nat -> Prop.
Hypothesis CA : calm (get_byte_array dec n) (like d0) V.
Lemma calm_op : calm (to_op dec n) (like d0) (fun o => match o with JPushByteArray i _ => V i | _ => True end).
Proof.
  intros d [c|c|i m|b|i] Hd HV; cbn [to_op]; try now apply calm_ret.
  - eapply calm_bind; [exact CA|exact Hd|exact HV|]. intros. now apply calm_ret.
  - unfold integer_new. destruct (in_i32 i); [destruct (_ && _); [now apply calm_ret|]|destruct (in_i128 i)]; (eexists; split; [reflexivity|]; split; discriminate).
Qed.
Definition taggedA (t : json_tagged_op) : Prop := Forall V (op_arrays t).
Lemma calm_tagged : calm (to_tagged_op dec n) (like d0) taggedA.
Proof.
  intros d t Hd HV. unfold to_tagged_op. eapply calm_bind; [apply calm_op|exact Hd| |].
  { unfold taggedA, op_arrays in HV. destruct (jt_op t); try exact I. now inversion HV. }
  intros o d1 D1. eapply calm_bind; [apply calm_string|exact D1|exact I|]. intros s d2 D2. eapply calm_bind; [|exact D2|apply all_true|].
  { apply calm_map. intros d' b' Hd' _. eapply calm_bind; [apply calm_string|exact Hd'|exact I|]. intros. now apply calm_ret. }
  intros co d3 D3. eapply calm_bind; [apply calm_option, calm_map, calm_option, calm_string|exact D3| |].
  { destruct (jt_pushed_names t); [|exact I]. apply Forall_forall. intros [x|] _; exact I. }
  intros nm d4 D4. eapply calm_bind; [apply calm_option, calm_map, calm_option, calm_string|exact D4| |].
  { destruct (jt_alt_pushed_names t); [|exact I]. apply Forall_forall. intros [x|] _; exact I. }
  intros. now apply calm_ret.
Qed.
Lemma flat_taggedA l : Forall V (flat_map op_arrays l) -> Forall taggedA l.
Proof. intros H. rewrite Forall_flat_map in H. exact H. Qed.
Lemma calm_input : calm (to_input dec n) (like d0) (fun i => Forall V (input_arrays i)).
Proof.
  intros d i Hd HV. unfold input_arrays in HV. inversion HV as [|? ? V1 V2]; subst. apply Forall_app in V2. destruct V2 as [V2 V3]. unfold to_input.
  eapply calm_bind; [exact CA|exact Hd|exact V1|]. intros a d1 D1. unfold fixed_from_byte_array. destruct (32 =? ba_len a); [|eexists; split; [reflexivity|]; split; discriminate]. unfold rbind at 1, rret at 1.
  eapply calm_bind; [apply calm_map, calm_tagged|exact D1|now apply flat_taggedA|]. intros sc d2 D2.
  eapply calm_bind; [apply calm_option, calm_map, calm_tagged|exact D2| |intros; now apply calm_ret]. destruct (ji_lock_script i); [now apply flat_taggedA|exact I].
Qed.
Lemma calm_output : calm (to_output dec n) (like d0) (fun o => Forall V (flat_map op_arrays (jo_script o))).
Proof. intros d o Hd HV. unfold to_output. eapply calm_bind; [apply calm_map, calm_tagged|exact Hd|now apply flat_taggedA|]. intros. now apply calm_ret. Qed.
Lemma calm_tx j : jx_data j = d0 -> Forall V (tx_arrays j) -> exists r, json_make_tx dec n j = Some r /\ r <> Panic.
Proof.
  intros Hd HV. unfold tx_arrays in HV. apply Forall_app in HV. destruct HV as [V1 V2]. rewrite Forall_flat_map in V1, V2. unfold json_make_tx.
  assert (exists r, rbind (rmap (to_input dec n) (jx_inputs j)) (fun ins => rbind (rmap (to_output dec n) (jx_outputs j)) (fun outs => rret (UnhashedTx (jx_version j) ins outs (jx_lock_time j)))) (jx_data j) = Some r /\ r <> Panic /\ forall c d'', r = Ok (c, d'') -> like d0 d'') as (r & -> & N & _).
  { eapply calm_bind; [apply calm_map, calm_input|rewrite Hd; apply same_refl|exact V1|]. intros ins d1 D1. eapply calm_bind; [apply calm_map, calm_output|exact D1|exact V2|]. intros. now apply calm_ret. }
  eexists. split; [reflexivity|]. destruct r as [[t d']|e|]; cbn [obind]; congruence.
Qed.
End Calm.
Lemma no_cycles_calm j : no_cycles (jx_data j) -> Forall (fun i => (i < length (jd_byte_arrays (jx_data j)))%nat) (tx_arrays j) ->
  exists n, forall m, (n <= m)%nat -> exists r, json_make_tx dec m j = Some r /\ r <> Panic.
Proof.
  intros (rank & HR) HV. exists (S (list_max (map rank (tx_arrays j)))). intros m Hm. eapply calm_tx; [apply (calm_array _ rank HR m)|reflexivity|].
  rewrite Forall_forall in *. intros i Hi. split; [now apply HV|]. assert (rank i <= list_max (map rank (tx_arrays j)))%nat; [|lia].
  pose proof (proj1 (list_max_le (map rank (tx_arrays j)) _) (Nat.le_refl _)) as HL. rewrite Forall_forall in HL. apply HL. now apply in_map.
Qed.

(** ** an array with a meaning does not reach itself *)
Lemma means_refers d a idx p : array_means dec d a idx -> refers d idx p -> exists b, array_means dec d b p /\ (depth b < depth a)%nat.
Proof.
  destruct a as [data name f ps]. rewrite array_means_eq. intros (j & s & H1 & _ & _ & _ & _ & H6) (j' & l & R1 & R2 & R3). assert (j' = j) as -> by congruence. rewrite R2 in H6. destruct ps as [ps|]; [|destruct H6]. cbn [opt_rel] in H6.
  assert (exists b, In b ps /\ array_means dec d b p) as (b & Hb & Hm).
  { clear - H6 R3. induction H6; [destruct R3|]. destruct R3 as [->|R3]; [eexists; split; [now left|assumption]|]. destruct (IHForall2 R3) as (b & Hb & Hm). exists b. split; [now right|exact Hm]. }
  exists b. split; [exact Hm|]. cbn [depth]. clear - Hb. induction ps as [|q ps IH]; [destruct Hb|]. destruct Hb as [->|Hb]; [lia|]. specialize (IH Hb). lia.
Qed.
Lemma means_reaches d a idx p : array_means dec d a idx -> reaches d idx p -> exists b, array_means dec d b p /\ (depth b < depth a)%nat.
Proof.
  intros H R. revert a H. induction R as [idx p R|idx p q R _ IH]; intros a H; [eapply means_refers; eassumption|]. destruct (means_refers _ _ _ _ H R) as (b & Hb & L1). destruct (IH b Hb) as (c & Hc & L2). exists c. split; [exact Hc|lia].
Qed.
Lemma means_acyclic d n : forall a idx, (depth a <= n)%nat -> array_means dec d a idx -> ~ reaches d idx idx.
Proof.
  induction n as [|n IH]; intros a idx Hn H R; [destruct a; cbn [depth] in Hn; lia|]. destruct (means_reaches _ _ _ _ H R) as (b & Hb & L). apply (IH b idx); [lia|exact Hb|exact R].
Qed.
Lemma means_uses d a idx p : array_means dec d a idx -> uses d idx p -> exists b, array_means dec d b p.
Proof. intros H [->|R]; [eauto|]. destruct (means_reaches _ _ _ _ H R) as (b & Hb & _). eauto. Qed.
Lemma means_exists d a idx : array_means dec d a idx -> exists j s b, nth_error (jd_byte_arrays d) idx = Some j /\ nth_error (jd_data_b64 d) (jb_data j) = Some s /\ dec s = Some b /\
  opt_all (fun n => (n < length (jd_strings d))%nat) (jb_name j).
Proof.
  destruct a as [data name f ps]. rewrite array_means_eq. intros (j & s & H1 & H2 & H3 & H4 & _). exists j, s, data. repeat (split; [assumption|]). destruct (jb_name j) as [x|], name; cbn [opt_rel opt_all] in *; try exact I; try contradiction. apply nth_error_Some. unfold string_means in H4. congruence.
Qed.
(** every array a transaction uses has a meaning *)
Lemma script_means_arrays d js s i : script_means dec d js s -> In i (flat_map op_arrays js) -> exists a, array_means dec d a i.
Proof.
  intros H. induction H as [|j t js s Hj _ IH]; [intros []|]. cbn [flat_map]. rewrite in_app_iff. intros [Hi|Hi]; [|auto]. destruct Hj as (Ho & _). unfold op_arrays in Hi. destruct (jt_op j) eqn:E; try contradiction. destruct Hi as [->|[]].
  destruct (t_op t); cbn [op_means] in Ho; try contradiction. destruct Ho. eauto.
Qed.
Lemma tx_means_arrays j t i : tx_means dec j t -> In i (tx_arrays j) -> exists a, array_means dec (jx_data j) a i.
Proof.
  intros (_ & H1 & H2 & _) Hi. unfold tx_arrays in Hi. apply in_app_iff in Hi. destruct Hi as [Hi|Hi]; apply in_flat_map in Hi; destruct Hi as (x & Hx & Hi).
  - assert (exists y, input_means dec (jx_data j) x y) as (y & Hy) by (clear - H1 Hx; induction H1; [destruct Hx|]; destruct Hx as [->|Hx]; eauto). destruct Hy as (A & _ & _ & B & _ & C & _).
    unfold input_arrays in Hi. destruct Hi as [<-|Hi]; [eauto|]. apply in_app_iff in Hi. destruct Hi as [Hi|Hi]; [eapply script_means_arrays; eassumption|]. destruct (ji_lock_script x), (in_lock_script y); cbn [opt_rel] in C; try contradiction. eapply script_means_arrays; eassumption.
  - assert (exists y, output_means dec (jx_data j) x y) as (y & Hy) by (clear - H2 Hx; induction H2; [destruct Hx|]; destruct Hx as [->|Hx]; eauto). destruct Hy as (_ & B). eapply script_means_arrays; eassumption.
Qed.
End R.
