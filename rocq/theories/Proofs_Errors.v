(** Lemmas about the errors of the JSON reader and the CashAddr reader. *)
From Verif Require Import Base BaseLemmas Model_Integer Spec_Integer Proofs_Integer Model_ByteArray Proofs_ByteArray Model_Opcode Model_Script Model_Code Model_Json Spec_Json Spec_JsonFile Proofs_Json Proofs_Json2 Proofs_Json3 Model_Address Spec_Address Proofs_Address Proofs_Address2 Spec_Errors.
Local Open Scope Z_scope.

Section R.
Variable dec : string -> option (list Z).
Notation cinv := (cinv dec).

(** a reader that fails reports a cause *)
Definition honest {A B} (g : B -> reader A) (V : B -> Prop) (C : json_data -> B -> err -> Prop) : Prop :=
  forall d b e, cinv d -> V b -> g b d = Some (Err e) -> C d b e.
Definition steady {B} (C : json_data -> B -> err -> Prop) : Prop := forall d d' b e, same d d' -> C d' b e -> C d b e.
Lemma bind_err {A B} (r : reader A) (f : A -> reader B) d e : rbind r f d = Some (Err e) ->
  r d = Some (Err e) \/ exists a d', r d = Some (Ok (a, d')) /\ f a d' = Some (Err e).
Proof. unfold rbind. destruct (r d) as [[[a d']|x|]|]; try discriminate; [eauto|]. intros H. injection H as ->. auto. Qed.
Lemma honest_map {A B} (g : B -> reader A) R V C : sound dec g R -> steady C -> honest g V C ->
  honest (rmap g) (Forall V) (fun d l e => exists b, In b l /\ C d b e).
Proof.
  intros HS HC H d l. revert d. induction l as [|b l IH]; intros d e Cd HV E; cbn [rmap] in E; [discriminate|]. inversion HV; subst.
  apply bind_err in E. destruct E as [E|(y & d1 & E1 & E)]; [exists b; split; [now left|eauto]|].
  destruct (HS _ _ _ _ Cd E1) as (S1 & C1 & _). apply bind_err in E. destruct E as [E|(ys & d2 & E2 & E)]; [|discriminate].
  destruct (IH _ _ C1 ltac:(assumption) E) as (x & Hx & Hc). exists x. split; [now right|eauto].
Qed.
Lemma honest_option {A B} (g : B -> reader A) V C : honest g V C -> honest (roption g) (opt_all V) (fun d o e => exists b, o = Some b /\ C d b e).
Proof.
  intros H d [b|] e Cd HV E; cbn [roption] in E; [|discriminate]. apply bind_err in E. destruct E as [E|(y & d1 & E1 & E)]; [exists b; split; [reflexivity|eauto]|discriminate].
Qed.
Definition anyN (_ : nat) : Prop := True.
Lemma honest_string : honest get_string anyN string_missing.
Proof.
  intros d n e _ _ E. unfold get_string in E. destruct (nth_error (jd_strings d) n) eqn:En; [discriminate|]. injection E as <-. apply nth_error_None in En. split; [exact En|reflexivity].
Qed.
Lemma steady_string : steady string_missing. Proof. intros d d' n e (_ & _ & S). unfold string_missing. now rewrite S. Qed.
Lemma refers_same d d' i p : same d d' -> refers d' i p <-> refers d i p.
Proof. intros (_ & S & _). unfold refers. now rewrite S. Qed.
Lemma reaches_same d d' i p : same d d' -> reaches d' i p -> reaches d i p.
Proof. intros S H. induction H; [apply reaches_one|eapply reaches_more; [|eassumption]]; now apply (refers_same d d'). Qed.
Lemma steady_array : steady (array_cause dec).
Proof.
  intros d d' i e S (p & en & U & E & H). exists p, en. split; [destruct U as [U|U]; [now left|right; eapply reaches_same; eassumption]|].
  destruct S as (S1 & S2 & S3). unfold string_missing in *. rewrite S1, S2, S3 in *. auto.
Qed.
Lemma honest_array n : honest (get_byte_array dec n) anyN (array_cause dec).
Proof.
  induction n as [|n IH]; intros d idx e Cd _ E; [discriminate|]. cbn [get_byte_array] in E. destruct (nth_error (jd_byte_arrays d) idx) as [j|] eqn:Ej; [|discriminate].
  apply bind_err in E. destruct E as [E|(ps & d1 & E1 & E)].
  - apply (honest_option _ _ _ (honest_map _ _ _ _ (sound_array dec n) steady_array IH)) in E; [|exact Cd|destruct (jb_preimages j); [|exact I]; apply Forall_forall; intros; exact I].
    destruct E as (l & El & b & Hb & p & en & U & H). exists p, en. split; [|exact H]. assert (refers d idx b) as Rf by (exists j, l; auto).
    right. destruct U as [->|U]; [now apply reaches_one|eapply reaches_more; eassumption].
  - assert (same d d1 /\ cinv d1) as [S1 C1].
    { destruct (sound_option dec _ _ (sound_map dec _ _ (stable_array dec) (sound_array dec n)) _ _ _ _ Cd E1) as (S1 & C1 & _). auto. }
    apply (steady_array _ _ _ _ S1). exists idx, j. split; [now left|]. split; [destruct S1 as (_ & -> & _); exact Ej|].
    apply bind_err in E. destruct E as [E|(data & d2 & E2 & E)].
    + unfold get_data in E. destruct (find_right (jb_data j) (jd_data_indices d1)); [discriminate|]. destruct (nth_error (jd_data_b64 d1) (jb_data j)) as [s|] eqn:En.
      * destruct (dec s) eqn:Ed; [discriminate|]. injection E as <-. right. left. exists s. auto.
      * injection E as <-. left. apply nth_error_None in En. auto.
    + destruct (sound_data dec _ _ _ _ C1 E2) as (S2 & C2 & _). apply bind_err in E. destruct E as [E|(nm & d3 & E3 & E)]; [|discriminate].
      apply (honest_option _ _ _ honest_string) in E; [|exact C2|destruct (jb_name j); exact I]. destruct E as (k & Ek & Hk). right. right. exists k. split; [exact Ek|]. exact (steady_string _ _ _ _ S2 Hk).
Qed.
(** JSON numbers pushed by operations are 32-bit. *)
Definition op_i32 (t : json_tagged_op) : Prop := match jt_op t with JPushInteger i => i32_ok i | _ => True end.
Lemma integer_new_err i e : i32_ok i -> integer_new i = Err e -> ~ script_int i /\ e = EInvalidScriptInteger i.
Proof.
  intros Hi H. assert (~ script_int i) as N by (intros X; apply integer_new_ok in X; congruence). split; [exact N|]. unfold integer_new in H.
  assert (in_i32 i = true) as Ei by (unfold in_i32; unfold i32_ok in Hi; lia). rewrite Ei in H. destruct (_ && _); [discriminate|]. now injection H as <-.
Qed.
Lemma honest_strings (l : list (option nat)) d e : cinv d -> rmap (roption get_string) l d = Some (Err e) -> exists n, In n (some_of l) /\ string_missing d n e.
Proof.
  intros Cd E. apply (honest_map _ (fun d => opt_rel (string_means d)) (opt_all anyN) (fun d o e => exists b, o = Some b /\ string_missing d b e)) in E; try exact Cd.
  - destruct E as (o & Ho & n & -> & Hn). exists n. split; [|exact Hn]. unfold some_of. apply in_flat_map. exists (Some n). split; [exact Ho|now left].
  - apply sound_option, sound_string.
  - intros d1 d2 o x S (b & Eb & Hb). exists b. split; [exact Eb|]. eapply steady_string; eassumption.
  - apply honest_option, honest_string.
  - apply Forall_forall. intros [x|] _; exact I.
Qed.
Lemma honest_names (l : option (list (option nat))) d e : cinv d -> roption (rmap (roption get_string)) l d = Some (Err e) -> exists n, In n (some_of (list_of l)) /\ string_missing d n e.
Proof.
  intros Cd E. destruct l as [l|]; cbn [roption] in E; [|discriminate]. apply bind_err in E. destruct E as [E|(y & d1 & E1 & E)]; [|discriminate]. now apply honest_strings.
Qed.
Lemma steady_tagged : steady (tagged_cause dec).
Proof.
  intros d d' t e S [(i & m & H1 & H2)|[H|(n & H1 & H2)]].
  - left. exists i, m. split; [exact H1|]. eapply steady_array; eassumption.
  - right. left. exact H.
  - right. right. exists n. split; [exact H1|]. eapply steady_string; eassumption.
Qed.
Lemma honest_tagged n : honest (to_tagged_op dec n) op_i32 (tagged_cause dec).
Proof.
  intros d t e Cd HV E. unfold to_tagged_op in E. apply bind_err in E. destruct E as [E|(o & d1 & E1 & E)].
  { unfold op_i32 in HV. unfold tagged_cause. destruct (jt_op t) as [c|c|i m|b|i]; cbn [to_op] in E; try discriminate.
    - apply bind_err in E. destruct E as [E|(a & d1 & E1 & E)]; [|discriminate]. left. exists i, m. split; [reflexivity|]. eapply honest_array; [exact Cd|exact I|exact E].
    - destruct (integer_new i) as [v|x|] eqn:Ei; try discriminate. injection E as <-. apply integer_new_err in Ei; [|exact HV]. destruct Ei as [N ->]. right. left. exists i. auto. }
  destruct (sound_op dec _ _ _ _ _ Cd E1) as (S1 & C1 & _). right. right. assert (exists m, In m (op_strings t) /\ string_missing d1 m e) as (m & Hm & X); [|exists m; split; [exact Hm|exact (steady_string _ _ _ _ S1 X)]]. unfold op_strings. clear d Cd E1 S1 HV.
  apply bind_err in E. destruct E as [E|(fl & d2 & E2 & E)]; [exists (jt_src_file t); split; [now left|]; eapply honest_string; [exact C1|exact I|exact E]|].
  destruct (sound_string dec _ _ _ _ C1 E2) as (S2 & C2 & _). apply bind_err in E. destruct E as [E|(co & d3 & E3 & E)].
  { apply (honest_map _ codeR (fun _ => True) (fun d p e => string_missing d (snd p) e)) in E; try exact C2.
    - destruct E as (p & Hp & Hc). exists (snd p). split; [right; apply in_app_iff; left; now apply in_map|exact (steady_string _ _ _ _ S2 Hc)].
    - apply sound_code.
    - intros x y b z S. now apply steady_string.
    - intros x p z Cx _ X. apply bind_err in X. destruct X as [X|(s & d4 & _ & X)]; [|discriminate]. eapply honest_string; [exact Cx|exact I|exact X].
    - apply Forall_forall. auto. }
  destruct (sound_map dec _ _ stable_code (sound_code dec) _ _ _ _ C2 E3) as (S3 & C3 & _). pose proof (same_trans _ _ _ S2 S3) as T3.
  apply bind_err in E. destruct E as [E|(nm & d4 & E4 & E)].
  { apply honest_names in E; [|exact C3]. destruct E as (m & Hm & Hc). exists m. split; [right; apply in_app_iff; right; apply in_app_iff; now left|exact (steady_string _ _ _ _ T3 Hc)]. }
  destruct (sound_names dec _ _ _ _ C3 E4) as (S4 & C4 & _). pose proof (same_trans _ _ _ T3 S4) as T4.
  apply bind_err in E. destruct E as [E|(an & d5 & E5 & E)]; [|discriminate].
  apply honest_names in E; [|exact C4]. destruct E as (m & Hm & Hc). exists m. split; [right; apply in_app_iff; right; apply in_app_iff; now right|exact (steady_string _ _ _ _ T4 Hc)].
Qed.
Lemma honest_script n : honest (to_script dec n) (Forall op_i32) (fun d l e => exists t, In t l /\ tagged_cause dec d t e).
Proof. eapply honest_map; [apply sound_tagged|apply steady_tagged|apply honest_tagged]. Qed.
Definition input_i32 (i : json_input) : Prop := Forall op_i32 (ji_script i) /\ opt_all (Forall op_i32) (ji_lock_script i).
Lemma honest_input n : honest (to_input dec n) input_i32 (input_cause dec).
Proof.
  intros d i e Cd [V1 V2] E. unfold to_input in E. unfold input_cause.
  apply bind_err in E. destruct E as [E|(a & d1 & E1 & E)]; [left; eapply honest_array; [exact Cd|exact I|exact E]|].
  destruct (sound_array dec _ _ _ _ _ Cd E1) as (S1 & C1 & R1). unfold fixed_from_byte_array in E. destruct (32 =? ba_len a) eqn:EL.
  2:{ unfold rbind at 1, rerr in E. injection E as <-. right. left. exists a. apply Z.eqb_neq in EL. split; [exact R1|]. split; [congruence|reflexivity]. }
  unfold rbind at 1, rret at 1 in E. right. right. assert (exists t, In t (ji_script i ++ list_of (ji_lock_script i)) /\ tagged_cause dec d1 t e) as (t & Ht & X); [|exists t; split; [exact Ht|exact (steady_tagged _ _ _ _ S1 X)]].
  apply bind_err in E. destruct E as [E|(sc & d2 & E2 & E)].
  { apply honest_script in E; [|exact C1|exact V1]. destruct E as (t & Ht & X). exists t. split; [apply in_app_iff; now left|exact X]. }
  destruct (sound_script dec _ _ _ _ _ C1 E2) as (S2 & C2 & _). apply bind_err in E. destruct E as [E|(lo & d3 & E3 & E)]; [|discriminate].
  apply (honest_option _ _ _ (honest_script n)) in E; [|exact C2|exact V2]. destruct E as (l & El & t & Ht & X). exists t. rewrite El. split; [apply in_app_iff; now right|exact (steady_tagged _ _ _ _ S2 X)].
Qed.
Lemma steady_input : steady (input_cause dec).
Proof.
  intros d d' i e S [H|[(a & H1 & H2)|(t & H1 & H2)]].
  - left. eapply steady_array; eassumption.
  - right. left. exists a. split; [eapply stable_array; eassumption|exact H2].
  - right. right. exists t. split; [exact H1|]. eapply steady_tagged; eassumption.
Qed.
Lemma honest_output n : honest (to_output dec n) (fun o => Forall op_i32 (jo_script o)) (fun d o e => exists t, In t (jo_script o) /\ tagged_cause dec d t e).
Proof.
  intros d o e Cd HV E. unfold to_output in E. apply bind_err in E. destruct E as [E|(sc & d1 & E1 & E)]; [|discriminate]. eapply honest_script; eassumption.
Qed.
Lemma make_tx_honest n j e : cinv (jx_data j) -> Forall input_i32 (jx_inputs j) -> Forall (fun o => Forall op_i32 (jo_script o)) (jx_outputs j) ->
  json_make_tx dec n j = Some (Err e) -> tx_cause dec j e.
Proof.
  intros C V1 V2. unfold json_make_tx. destruct (rbind _ _ _) as [[[x d']|x|]|] eqn:E; try discriminate. cbn [obind]. intros X. injection X as ->.
  apply bind_err in E. destruct E as [E|(ins & d1 & E1 & E)].
  - left. eapply honest_map in E; [exact E|apply sound_input|apply steady_input|apply honest_input|exact C|exact V1].
  - destruct (sound_map dec _ _ (stable_input dec) (sound_input dec n) _ _ _ _ C E1) as (S1 & C1 & _). apply bind_err in E. destruct E as [E|(outs & d2 & E2 & E)]; [|discriminate].
    right. assert (exists o, In o (jx_outputs j) /\ exists t, In t (jo_script o) /\ tagged_cause dec d1 t e) as (o & Ho & t & Ht & X).
    { eapply (honest_map _ _ _ (fun d o e => exists t, In t (jo_script o) /\ tagged_cause dec d t e)) in E; [exact E|apply sound_output| |apply honest_output|exact C1|exact V2].
      intros d d0 o x S (t & Ht & X). exists t. split; [exact Ht|]. eapply steady_tagged; eassumption. }
    exists o, t. split; [exact Ho|]. split; [exact Ht|]. eapply steady_tagged; eassumption.
Qed.

(** tables with a fault have no meaning *)
Lemma missing_string d n e s : string_missing d n e -> ~ string_means d n s.
Proof. intros [H _] X. unfold string_means in X. assert (n < length (jd_strings d))%nat by (apply nth_error_Some; congruence). lia. Qed.
Lemma faulty_array d i e a : array_cause dec d i e -> ~ array_means dec d a i.
Proof.
  intros (p & en & U & E & H) M. destruct (means_uses dec _ _ _ _ M U) as (b & Hb). destruct b as [data name f ps]. rewrite array_means_eq in Hb. destruct Hb as (j & s & H1 & H2 & H3 & H4 & _).
  assert (j = en) as -> by congruence. destruct H as [[H _]|[(s' & H5 & H6 & _)|(n & H5 & H6)]].
  - assert (jb_data en < length (jd_data_b64 d))%nat by (apply nth_error_Some; congruence). lia.
  - congruence.
  - rewrite H5 in H4. destruct name as [x|]; [|destruct H4]. exact (missing_string _ _ _ _ H6 H4).
Qed.
Lemma some_means d l l' n : Forall2 (opt_rel (string_means d)) l l' -> In n (some_of l) -> exists s, string_means d n s.
Proof.
  intros H. induction H as [|x y l l' Hx _ IH]; [intros []|]. unfold some_of. cbn [flat_map]. rewrite in_app_iff. intros [Hn|Hn]; [|auto]. destruct x as [x|]; [|destruct Hn]. destruct Hn as [->|[]]. destruct y as [y|]; [|destruct Hx]. eauto.
Qed.
Lemma faulty_tagged d j t e : tagged_cause dec d j e -> ~ tagged_means dec d j t.
Proof.
  intros H (A & B & _ & _ & E & F & G). destruct H as [(i & m & H1 & H2)|[(i & H1 & H2 & _)|(n & H1 & H2)]].
  - rewrite H1 in A. destruct (t_op t); cbn [op_means] in A; try contradiction. destruct A as [A _]. exact (faulty_array _ _ _ _ H2 A).
  - rewrite H1 in A. destruct (t_op t); cbn [op_means] in A; try contradiction. destruct A as [A _]. contradiction.
  - assert (exists s, string_means d n s) as (s & Hs); [|exact (missing_string _ _ _ _ H2 Hs)]. destruct H1 as [<-|H1]; [eauto|]. apply in_app_iff in H1. destruct H1 as [H1|H1].
    + apply in_map_iff in H1. destruct H1 as (p & <- & Hp). clear - E Hp. induction E as [|x y l l' [_ Hx] _ IH]; [destruct Hp|]. destruct Hp as [->|Hp]; eauto.
    + apply in_app_iff in H1. unfold names_mean in *. destruct H1 as [H1|H1]; [destruct (jt_pushed_names j), (t_pushed_names t)|destruct (jt_alt_pushed_names j), (t_alt_pushed_names t)]; cbn [opt_rel list_of] in *; try contradiction; eapply some_means; eassumption.
Qed.
Lemma script_means_in d js s j : script_means dec d js s -> In j js -> exists t, tagged_means dec d j t.
Proof. intros H Hj. induction H; [destruct Hj|]. destruct Hj as [->|Hj]; eauto. Qed.
Lemma array_means_fun d : forall a b i, array_means dec d a i -> array_means dec d b i -> a = b.
Proof.
  induction a as [data name f|data name f ps IH] using barray_ind'; intros [data' name' f' ps'] i; rewrite !array_means_eq; intros (j & s & H1 & H2 & H3 & H4 & H5 & H6) (j' & s' & K1 & K2 & K3 & K4 & K5 & K6);
  assert (j' = j) as -> by congruence; assert (s' = s) as -> by congruence; assert (data' = data) as -> by congruence; subst f f';
  (assert (name' = name) as -> by (unfold string_means in *; destruct (jb_name j), name, name'; cbn [opt_rel] in *; try contradiction; congruence)).
  - destruct (jb_preimages j); [destruct H6|]. destruct ps'; [destruct K6|]. reflexivity.
  - destruct (jb_preimages j) as [is|]; [|destruct H6]. destruct ps' as [ps'|]; [|destruct K6]. cbn [opt_rel] in *. do 2 f_equal. clear - IH H6 K6. revert ps' K6.
    induction H6 as [|i p is ps Hp _ IHl]; intros ps' K6; inversion K6; subst; [reflexivity|]. inversion IH; subst. f_equal; eauto.
Qed.
Lemma faulty_tx j t e : tx_cause dec j e -> ~ tx_means dec j t.
Proof.
  intros H (_ & H1 & H2 & _). destruct H as [(i & Hi & Hc)|(o & x & Ho & Hx & Hc)].
  - assert (exists y, input_means dec (jx_data j) i y) as (y & A & B & _ & D & _ & F & _) by (clear - H1 Hi; induction H1; [destruct Hi|]; destruct Hi as [->|Hi]; eauto).
    destruct Hc as [Hc|[(a & Ha & Hl & _)|(x & Hx & Hc)]].
    + exact (faulty_array _ _ _ _ Hc A).
    + rewrite (array_means_fun _ _ _ _ Ha A) in Hl. contradiction.
    + apply in_app_iff in Hx. destruct Hx as [Hx|Hx].
      * destruct (script_means_in _ _ _ _ D Hx) as (y' & Hy). exact (faulty_tagged _ _ _ _ Hc Hy).
      * destruct (ji_lock_script i), (in_lock_script y); cbn [opt_rel list_of] in *; try contradiction. destruct (script_means_in _ _ _ _ F Hx) as (y' & Hy). exact (faulty_tagged _ _ _ _ Hc Hy).
  - assert (exists y, output_means dec (jx_data j) o y) as (y & _ & B) by (clear - H2 Ho; induction H2; [destruct Ho|]; destruct Ho as [->|Ho]; eauto).
    destruct (script_means_in _ _ _ _ B Hx) as (y' & Hy). exact (faulty_tagged _ _ _ _ Hc Hy).
Qed.
End R.
