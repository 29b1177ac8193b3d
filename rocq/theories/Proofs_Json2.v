(** Lemmas about the JSON form: operations, inputs, outputs, whole transactions; JSON values. *)
From Verif Require Import Base BaseLemmas Model_Integer Spec_Integer Model_ByteArray Proofs_ByteArray Model_Opcode Model_Script Proofs_Script Model_Code Model_Json Spec_Json Proofs_Json.
Local Open Scope Z_scope.

Definition op_fits (n : nat) (o : json_op) : Prop :=
  match o with JCode c | JInvalid c => byte_ok c | JPushByteArray i _ => (i < n)%nat | JPushBoolean _ => True | JPushInteger i => i32_ok i end.
Definition names_fit (n : nat) : option (list (option nat)) -> Prop := opt_all (Forall (opt_all (fun i => (i < n)%nat))).
Definition tagged_fits (n : nat) (t : json_tagged_op) : Prop :=
  op_fits n (jt_op t) /\ (jt_src_file t < n)%nat /\ u32_ok (jt_src_line t) /\ u32_ok (jt_src_column t) /\ Forall (fun p => u32_ok (fst p) /\ (snd p < n)%nat) (jt_src_code t) /\
  names_fit n (jt_pushed_names t) /\ names_fit n (jt_alt_pushed_names t).
Definition input_fits (n : nat) (i : json_input) : Prop :=
  (ji_prev_out_hash i < n)%nat /\ u32_ok (ji_prev_out_vout i) /\ Forall (tagged_fits n) (ji_script i) /\ u32_ok (ji_sequence i) /\ opt_all (Forall (tagged_fits n)) (ji_lock_script i) /\
  opt_all u64_ok (ji_value i) /\ opt_all (Forall u32_ok) (ji_sig_hash_flags i).
Definition output_fits (n : nat) (o : json_output) : Prop := u64_ok (jo_value o) /\ Forall (tagged_fits n) (jo_script o).

Definition op_fuel (fuel : nat) (o : op) : Prop := match o with OPushArray a _ => (depth a <= fuel)%nat | _ => True end.
Definition tagged_V (fuel : nat) (t : tagged_op) : Prop := tagged_in_range t /\ op_fuel fuel (t_op t).
Definition input_V (fuel : nat) (i : tx_input) : Prop :=
  input_in_range i /\ (depth (op_tx_hash (in_prev_out i)) <= fuel)%nat /\ Forall (tagged_V fuel) (in_script i) /\ opt_all (Forall (tagged_V fuel)) (in_lock_script i).
Definition output_V (fuel : nat) (o : tx_output) : Prop := u64_ok (out_value o) /\ Forall (tagged_V fuel) (out_script o).

Lemma mono_op : mono op_fits. Proof. intros n m [| | | |] H; cbn; auto. lia. Qed.
Lemma mono_names : mono names_fit. Proof. apply mono_opt, mono_list, mono_opt, mono_lt. Qed.
Lemma mono_code : mono (fun n => Forall (fun p : Z * nat => u32_ok (fst p) /\ (snd p < n)%nat)).
Proof. apply (mono_list (fun n p => u32_ok (fst p) /\ (snd p < n)%nat)). intros n m [w i] H [A B]. split; [exact A|lia]. Qed.
Lemma mono_tagged : mono tagged_fits.
Proof.
  intros n m t H (A & B & C & D & E & F & G). split; [eapply mono_op; eassumption|]. split; [lia|]. split; [exact C|]. split; [exact D|]. split; [eapply mono_code; eassumption|].
  split; eapply mono_names; eassumption.
Qed.
Lemma mono_script : mono (fun n => Forall (tagged_fits n)). Proof. apply mono_list, mono_tagged. Qed.
Lemma mono_input : mono input_fits.
Proof.
  intros n m i H (A & B & C & D & E & F & G). split; [lia|]. split; [exact B|]. split; [eapply mono_script; eassumption|]. split; [exact D|]. split; [eapply (mono_opt _ mono_script); eassumption|]. split; assumption.
Qed.
Lemma mono_output : mono output_fits. Proof. intros n m i H (A & B). split; [exact A|eapply mono_script; eassumption]. Qed.

Lemma json_opcode_u8_byte c : byte_ok (opcode_u8 c).
Proof. unfold byte_ok. destruct (opcode_u8_range c) as [H|H]; lia. Qed.

Section J.
Variable enc : list Z -> string.
Variable dec : string -> option (list Z).
Hypothesis RT : base64_ok enc dec.
Notation winv := (winv enc).
Notation good := (good dec).
Notation rt := (rt enc dec).

Lemma good_ret {A B} (g : B -> reader A) d a b : g b = rret a -> good g d a b.
Proof. intros H d1 _ C. exists d1. rewrite H. repeat split; assumption || reflexivity. Qed.
(** reading through a bind *)
Lemma good_step {A B} (g : B -> reader A) d a b d1 : good g d a b -> ext d d1 -> cinv dec d1 ->
  exists d2, (forall C (k : A -> reader C), rbind (g b) k d1 = k a d2) /\ same d1 d2 /\ cinv dec d2.
Proof. intros G X H. destruct (G d1 X H) as (d2 & E & S & C2). exists d2. split; [intros C k; now apply rbind_ok|auto]. Qed.

Lemma rt_op fuel : rt (from_op enc) (to_op dec fuel) (fun o => op_in_range o /\ op_fuel fuel o) op_fits.
Proof.
  intros o d [HR HF] W. destruct o as [c|c|a m|b|i]; cbn [from_op].
  - exists (JCode (opcode_u8 c)), d. repeat (split; [first [reflexivity|exact W|apply ext_refl]|]). split; [|apply json_opcode_u8_byte]. apply good_ret. cbn [to_op]. now rewrite opcode_roundtrip.
  - exists (JInvalid c), d. repeat (split; [first [reflexivity|exact W|apply ext_refl]|]). split; [|exact HR]. now apply good_ret.
  - destruct (rt_array enc dec RT fuel a d (conj HR HF) W) as (i & d1 & -> & W1 & X1 & G1 & F1). exists (JPushByteArray i m), d1. repeat (split; [first [reflexivity|assumption]|]). split; [|exact F1].
    intros d2 X2 C2. cbn [to_op]. destruct (good_step _ _ _ _ d2 G1 X2 C2) as (d3 & -> & S3 & C3). exists d3. repeat split; try apply S3; assumption.
  - exists (JPushBoolean b), d. repeat (split; [first [reflexivity|exact W|apply ext_refl]|]). split; [|exact I]. now apply good_ret.
  - exists (JPushInteger i), d. repeat (split; [first [reflexivity|exact W|apply ext_refl]|]). cbn [op_in_range] in HR. unfold script_int in HR. split; [|unfold op_fits, i32_ok; lia]. apply good_ret. cbn [to_op].
    unfold integer_new, in_i32, MIN_SCRIPT_INTEGER, MAX_SCRIPT_INTEGER. rewrite !(proj2 (Z.leb_le _ _)), (proj2 (Z.ltb_lt _ _)) by lia. reflexivity.
Qed.
Lemma rt_code : rt (fun p d => let '(i, d) := insert_string (snd p) d in ((fst p, i), d)) (fun p => rbind (get_string (snd p)) (fun s => rret (fst p, s)))
  (fun p => u32_ok (fst p)) (fun n p => u32_ok (fst p) /\ (snd p < n)%nat).
Proof.
  intros [w s] d HR W. cbn [fst snd] in *. destruct (rt_string enc dec s d I W) as (i & d1 & -> & W1 & X1 & G1 & F1). exists (w, i), d1. repeat (split; [first [reflexivity|assumption]|]). split; [|split; assumption].
  intros d2 X2 C2. cbn [fst snd]. destruct (good_step _ _ _ _ d2 G1 X2 C2) as (d3 & -> & S3 & C3). exists d3. repeat split; try apply S3; assumption.
Qed.
Lemma rt_names : rt (soption (smap (soption insert_string))) (roption (rmap (roption get_string))) (fun _ => True) names_fit.
Proof.
  intros o d _ W. assert (opt_all (Forall (opt_all (fun _ : string => True))) o) as HV.
  { destruct o as [l|]; [|exact I]. apply Forall_forall. intros [x|] _; exact I. }
  revert d W. pose proof (rt_soption enc dec _ _ _ _ (rt_smap enc dec _ _ _ _ (mono_opt _ mono_lt) (rt_soption enc dec _ _ _ _ (rt_string enc dec)))) as R. intros d W. exact (R o d HV W).
Qed.
Lemma rt_tagged fuel : rt (from_tagged_op enc) (to_tagged_op dec fuel) (tagged_V fuel) tagged_fits.
Proof.
  intros t d [(H1 & H2 & H3 & H4) HF] W. unfold from_tagged_op.
  destruct (rt_op fuel (t_op t) d (conj H1 HF) W) as (o & d1 & -> & W1 & X1 & G1 & F1).
  destruct (rt_string enc dec (t_src_file t) d1 I W1) as (fl & d2 & -> & W2 & X2 & G2 & F2).
  destruct (rt_smap enc dec _ _ _ _ (fun n m b H => fun F => conj (proj1 F) (mono_lt n m (snd b) H (proj2 F))) rt_code (t_src_code t) d2 H4 W2) as (co & d3 & -> & W3 & X3 & G3 & F3).
  destruct (rt_names (t_pushed_names t) d3 I W3) as (nm & d4 & -> & W4 & X4 & G4 & F4).
  destruct (rt_names (t_alt_pushed_names t) d4 I W4) as (an & d5 & -> & W5 & X5 & G5 & F5).
  eexists _, _. split; [reflexivity|]. split; [exact W5|].
  assert (X45 := X5). assert (X35 : ext d3 d5) by (eapply ext_trans; eassumption). assert (X25 : ext d2 d5) by (eapply ext_trans; eassumption). assert (X15 : ext d1 d5) by (eapply ext_trans; eassumption).
  split; [eapply ext_trans; eassumption|]. split.
  - intros e0 Y0 C0. unfold to_tagged_op. cbn [jt_op jt_src_file jt_src_line jt_src_column jt_src_code jt_pushed_names jt_alt_pushed_names].
    edestruct (good_step _ _ _ _ e0 G1) as (e1 & Q & S1 & C1); [eapply ext_trans; eassumption|exact C0|rewrite Q; clear Q]. pose proof (ext_trans _ _ _ Y0 (same_ext _ _ S1)) as Y1.
    edestruct (good_step _ _ _ _ e1 G2) as (e2 & Q & S2 & C2); [eapply ext_trans; eassumption|exact C1|rewrite Q; clear Q]. pose proof (ext_trans _ _ _ Y1 (same_ext _ _ S2)) as Y2.
    edestruct (good_step _ _ _ _ e2 G3) as (e3 & Q & S3 & C3); [eapply ext_trans; eassumption|exact C2|rewrite Q; clear Q]. pose proof (ext_trans _ _ _ Y2 (same_ext _ _ S3)) as Y3.
    edestruct (good_step _ _ _ _ e3 G4) as (e4 & Q & S4 & C4); [eapply ext_trans; eassumption|exact C3|rewrite Q; clear Q]. pose proof (ext_trans _ _ _ Y3 (same_ext _ _ S4)) as Y4.
    edestruct (good_step _ _ _ _ e4 G5) as (e5 & Q & S5 & C5); [exact Y4|exact C4|rewrite Q; clear Q].
    exists e5. split; [destruct t; reflexivity|]. split; [|exact C5]. eapply same_trans; [exact S1|]. eapply same_trans; [exact S2|]. eapply same_trans; [exact S3|]. eapply same_trans; eassumption.
  - unfold tagged_fits. cbn [jt_op jt_src_file jt_src_line jt_src_column jt_src_code jt_pushed_names jt_alt_pushed_names].
    split; [eapply mono_op; [|exact F1]; now apply ext_bound|]. split; [eapply Nat.lt_le_trans; [exact F2|]; now apply ext_bound|]. split; [exact H2|]. split; [exact H3|].
    split; [eapply mono_code; [|exact F3]; now apply ext_bound|]. split; [eapply mono_names; [|exact F4]; now apply ext_bound|exact F5].
Qed.
Lemma rt_script fuel : rt (make_ops enc) (to_script dec fuel) (Forall (tagged_V fuel)) (fun n => Forall (tagged_fits n)).
Proof. apply rt_smap; [apply mono_tagged|apply rt_tagged]. Qed.
Lemma rt_input fuel : rt (from_input enc) (to_input dec fuel) (input_V fuel) input_fits.
Proof.
  intros i d ((R1 & R2 & R3 & _ & R5 & _ & R7 & R8) & H1 & H2 & H3) W. unfold from_input.
  destruct (rt_array enc dec RT fuel _ d (conj R1 H1) W) as (h & d1 & -> & W1 & X1 & G1 & F1).
  destruct (rt_script fuel (in_script i) d1 H2 W1) as (s & d2 & -> & W2 & X2 & G2 & F2).
  destruct (rt_soption enc dec _ _ _ _ (rt_script fuel) (in_lock_script i) d2 H3 W2) as (l & d3 & -> & W3 & X3 & G3 & F3).
  eexists _, _. split; [reflexivity|]. split; [exact W3|]. assert (X13 : ext d1 d3) by (eapply ext_trans; eassumption).
  split; [eapply ext_trans; eassumption|]. split.
  - intros e0 Y0 C0. unfold to_input. cbn [ji_prev_out_hash ji_prev_out_vout ji_script ji_sequence ji_lock_script ji_value ji_is_p2sh ji_sig_hash_flags].
    edestruct (good_step _ _ _ _ e0 G1) as (e1 & Q & S1 & C1); [eapply ext_trans; eassumption|exact C0|rewrite Q; clear Q]. pose proof (ext_trans _ _ _ Y0 (same_ext _ _ S1)) as Y1.
    unfold fixed_from_byte_array. rewrite R2, Z.eqb_refl. unfold rbind at 1, rret at 1.
    edestruct (good_step _ _ _ _ e1 G2) as (e2 & Q & S2 & C2); [eapply ext_trans; eassumption|exact C1|rewrite Q; clear Q]. pose proof (ext_trans _ _ _ Y1 (same_ext _ _ S2)) as Y2.
    edestruct (good_step _ _ _ _ e2 G3) as (e3 & Q & S3 & C3); [exact Y2|exact C2|rewrite Q; clear Q].
    exists e3. split; [destruct i as [[] ? ? ? ? ? ?]; reflexivity|]. split; [|exact C3]. eapply same_trans; [exact S1|]. eapply same_trans; eassumption.
  - unfold input_fits. cbn [ji_prev_out_hash ji_prev_out_vout ji_script ji_sequence ji_lock_script ji_value ji_is_p2sh ji_sig_hash_flags].
    split; [eapply Nat.lt_le_trans; [exact F1|]; now apply ext_bound|]. split; [exact R3|]. split; [eapply mono_script; [|exact F2]; now apply ext_bound|]. split; [exact R5|]. split; [exact F3|]. split; assumption.
Qed.
Lemma rt_output fuel : rt (from_output enc) (to_output dec fuel) (output_V fuel) output_fits.
Proof.
  intros o d (R1 & R2) W. unfold from_output. destruct (rt_script fuel (out_script o) d R2 W) as (s & d1 & -> & W1 & X1 & G1 & F1).
  eexists _, _. split; [reflexivity|]. split; [exact W1|]. split; [exact X1|]. split; [|split; assumption].
  intros e0 Y0 C0. unfold to_output. cbn [jo_script jo_value]. edestruct (good_step _ _ _ _ e0 G1) as (e1 & Q & S1 & C1); [exact Y0|exact C0|rewrite Q; clear Q]. exists e1. split; [destruct o; reflexivity|auto].
Qed.

Definition tx_V (fuel : nat) (t : unhashed_tx) : Prop := Forall (input_V fuel) (tx_inputs t) /\ Forall (output_V fuel) (tx_outputs t).
(** the maps are skipped by serde *)
Definition reset (d : json_data) : json_data := JsonData (jd_data_b64 d) (jd_byte_arrays d) (jd_strings d) [] [].
Lemma tx_back fuel t : tx_V fuel t -> exists d ins outs, json_from_tx enc t = JsonTx d (tx_version t) ins outs (tx_lock_time t) /\ winv d /\
  json_make_tx dec fuel (JsonTx (reset d) (tx_version t) ins outs (tx_lock_time t)) = Some (Ok t) /\ Forall (input_fits (bound d)) ins /\ Forall (output_fits (bound d)) outs.
Proof.
  intros [V1 V2]. unfold json_from_tx.
  destruct (rt_smap enc dec _ _ _ _ mono_input (rt_input fuel) (tx_inputs t) empty_data V1 (winv_empty enc)) as (ins & d1 & -> & W1 & X1 & G1 & F1).
  destruct (rt_smap enc dec _ _ _ _ mono_output (rt_output fuel) (tx_outputs t) d1 V2 W1) as (outs & d2 & -> & W2 & X2 & G2 & F2).
  exists d2, ins, outs. split; [reflexivity|]. split; [exact W2|]. split; [|split; [eapply (mono_list _ mono_input); [|exact F1]; now apply ext_bound|exact F2]].
  unfold json_make_tx. cbn [jx_inputs jx_outputs jx_version jx_lock_time jx_data].
  assert (Y0 : ext d2 (reset d2)) by (repeat split; apply prefix_refl). assert (C0 : cinv dec (reset d2)) by (intros ? ? []).
  edestruct (good_step _ _ _ _ (reset d2) G1) as (e1 & Q & S1 & C1); [eapply ext_trans; eassumption|exact C0|rewrite Q; clear Q]. pose proof (ext_trans _ _ _ Y0 (same_ext _ _ S1)) as Y1.
  edestruct (good_step _ _ _ _ e1 G2) as (e2 & Q & S2 & C2); [exact Y1|exact C1|rewrite Q; clear Q]. unfold rret. cbn [obind]. now destruct t.
Qed.
End J.

(** enough fuel *)
Lemma fuel_list {A} (P : nat -> A -> Prop) l : (forall n m a, (n <= m)%nat -> P n a -> P m a) -> Forall (fun a => exists n, P n a) l -> exists n, Forall (P n) l.
Proof.
  intros HM. induction 1 as [|a l (n & Hn) _ (m & Hm)]; [exists O; constructor|]. exists (Nat.max n m). constructor; [eapply HM; [|exact Hn]; lia|]. eapply Forall_impl; [|exact Hm]. intros x. apply HM. lia.
Qed.
Lemma tagged_V_mono n m t : (n <= m)%nat -> tagged_V n t -> tagged_V m t.
Proof. intros H [A B]. split; [exact A|]. destruct (t_op t); cbn in *; try exact I. lia. Qed.
Lemma tagged_fuel l : Forall tagged_in_range l -> exists n, Forall (tagged_V n) l.
Proof.
  intros H. apply fuel_list; [apply tagged_V_mono|]. eapply Forall_impl; [|exact H]. intros t Ht. exists (match t_op t with OPushArray a _ => depth a | _ => O end). split; [exact Ht|].
  destruct (t_op t); cbn; try exact I. lia.
Qed.
Lemma Forall_V_mono n m l : (n <= m)%nat -> Forall (tagged_V n) l -> Forall (tagged_V m) l.
Proof. intros H. apply Forall_impl. intros t. now apply tagged_V_mono. Qed.
Lemma tx_fuel t : tx_in_range t -> exists n, forall m, (n <= m)%nat -> tx_V m t.
Proof.
  intros (_ & H1 & H2 & _).
  assert (exists n, Forall (input_V n) (tx_inputs t)) as (n1 & N1).
  { apply fuel_list.
    - intros n m i H (A & B & C & D). split; [exact A|]. split; [lia|]. split; [eapply Forall_V_mono; eassumption|]. destruct (in_lock_script i); cbn in *; [eapply Forall_V_mono; eassumption|exact I].
    - eapply Forall_impl; [|exact H1]. intros i Hi. pose proof Hi as (R1 & R2 & R3 & R4 & R5 & R6 & _). destruct (tagged_fuel _ R4) as (n & Hn).
      assert (exists m, opt_all (Forall (tagged_V m)) (in_lock_script i)) as (m & Hm) by (destruct (in_lock_script i) as [l|]; [now apply tagged_fuel|exists O; exact I]).
      exists (Nat.max (depth (op_tx_hash (in_prev_out i))) (Nat.max n m)). split; [exact Hi|]. split; [lia|]. split; [eapply Forall_V_mono; [|exact Hn]; lia|]. destruct (in_lock_script i); cbn in *; [eapply Forall_V_mono; [|exact Hm]; lia|exact I]. }
  assert (exists n, Forall (output_V n) (tx_outputs t)) as (n2 & N2).
  { apply fuel_list; [intros n m o H (A & B); split; [exact A|eapply Forall_V_mono; eassumption]|].
    eapply Forall_impl; [|exact H2]. intros o (R1 & R2). destruct (tagged_fuel _ R2) as (n & Hn). exists n. split; assumption. }
  exists (Nat.max n1 n2). intros m Hm. split.
  - eapply Forall_impl; [|exact N1]. intros i (A & B & C & D). split; [exact A|]. split; [lia|]. split; [eapply Forall_V_mono; [|exact C]; lia|]. destruct (in_lock_script i); cbn in *; [eapply Forall_V_mono; [|exact D]; lia|exact I].
  - eapply Forall_impl; [|exact N2]. intros o (A & B). split; [exact A|eapply Forall_V_mono; [|exact B]; lia].
Qed.

(** ** JSON values *)
Definition idx64 (i : nat) : Prop := Z.of_nat i < 2 ^ 64.
Lemma d_int_ok lo hi v : lo <= v <= hi -> d_int lo hi (JNum v) = Some v.
Proof. intros H. unfold d_int. rewrite !(proj2 (Z.leb_le _ _)) by lia. reflexivity. Qed.
Lemma d_usize_ok i : idx64 i -> d_usize (j_nat i) = Some i.
Proof. unfold idx64. intros H. unfold d_usize, d_u64, j_nat. rewrite d_int_ok by lia. now rewrite Nat2Z.id. Qed.
Lemma d_u32_ok v : u32_ok v -> d_u32 (JNum v) = Some v. Proof. unfold u32_ok. intros H. apply d_int_ok. lia. Qed.
Lemma d_u64_ok v : u64_ok v -> d_u64 (JNum v) = Some v. Proof. unfold u64_ok. intros H. apply d_int_ok. lia. Qed.
Lemma d_i32_ok v : i32_ok v -> d_i32 (JNum v) = Some v. Proof. unfold i32_ok. intros H. apply d_int_ok. lia. Qed.
Lemma d_u8_ok v : byte_ok v -> d_u8 (JNum v) = Some v. Proof. unfold byte_ok. intros H. apply d_int_ok. lia. Qed.
Lemma d_vec_ok {A} (j : A -> json) (f : json -> option A) l : Forall (fun a => f (j a) = Some a) l -> d_vec f (j_vec j l) = Some l.
Proof. intros H. cbn [d_vec j_vec]. induction H as [|a l Ha _ IH]; [reflexivity|]. cbn [map d_all]. now rewrite Ha, IH. Qed.
Lemma d_opt_ok {A} (j : A -> json) (f : json -> option A) o : (forall a, j a <> JNull) -> opt_all (fun a => f (j a) = Some a) o -> d_opt f (j_opt j o) = Some o.
Proof. intros HN H. destruct o as [a|]; [|reflexivity]. cbn [j_opt opt_all] in *. unfold d_opt. destruct (j a) eqn:E; rewrite ?H; try reflexivity. exfalso. exact (HN a E). Qed.
Lemma d_func_ok f : d_func (j_func f) = Some f. Proof. destruct f; reflexivity. Qed.
Definition entry_fits (b : json_byte_array) : Prop := idx64 (jb_data b) /\ opt_all idx64 (jb_name b) /\ opt_all (Forall idx64) (jb_preimages b).
Lemma d_byte_array_ok b : entry_fits b -> d_byte_array (j_byte_array b) = Some b.
Proof.
  intros (H1 & H2 & H3). destruct b as [d f n p]. cbn [jb_data jb_name jb_preimages] in *. unfold d_byte_array, d_tuple, j_byte_array. cbn [jb_data jb_function jb_name jb_preimages].
  assert (HV : forall l, Forall idx64 l -> d_opt (d_vec d_usize) (j_vec j_nat l) = Some (Some l)).
  { intros l Hl. apply (d_opt_ok (j_vec j_nat) (d_vec d_usize) (Some l)); [discriminate|]. cbn [opt_all]. apply d_vec_ok. eapply Forall_impl; [|exact Hl]. intros a. apply d_usize_ok. }
  assert (HN : forall k, idx64 k -> d_opt d_usize (j_nat k) = Some (Some k)).
  { intros k Hk. apply (d_opt_ok j_nat d_usize (Some k)); [discriminate|]. now apply d_usize_ok. }
  destruct n as [n|], p as [p|]; cbn [opt_all] in *.
  - assert ((match f with FPlain | _ => JArr [j_nat d; j_func f; j_nat n; j_vec j_nat p] end) = JArr [j_nat d; j_func f; j_nat n; j_vec j_nat p]) as E by (destruct f; reflexivity).
    destruct f; cbn [d_tuple_a]; rewrite (d_usize_ok d H1), d_func_ok, (HN n H2), (HV p H3); reflexivity.
  - destruct f; cbn [d_tuple_a d_tuple_b]; rewrite (d_usize_ok d H1), d_func_ok, (HN n H2); reflexivity.
  - destruct f; cbn [d_tuple_a]; rewrite (d_usize_ok d H1), d_func_ok, (HV p H3); reflexivity.
  - destruct f; try (cbn [d_tuple_a d_tuple_b d_tuple_c]; rewrite (d_usize_ok d H1), d_func_ok; reflexivity).
    cbn [d_tuple_a d_tuple_b d_tuple_c j_nat]. unfold d_tuple_d. rewrite (d_usize_ok d H1). reflexivity.
Qed.
Lemma d_op_ok n o : Z.of_nat n <= 2 ^ 64 -> op_fits n o -> d_op (j_op o) = Some o.
Proof.
  intros HN H. destruct o; cbn [op_fits] in H.
  - transitivity (option_map JCode (d_u8 (JNum c))); [reflexivity|]. now rewrite d_u8_ok.
  - transitivity (option_map JInvalid (d_u8 (JNum c))); [reflexivity|]. now rewrite d_u8_ok.
  - transitivity (match d_usize (j_nat array_idx), d_bool (JBool is_minimal) with Some i, Some m => Some (JPushByteArray i m) | _, _ => None end); [reflexivity|]. rewrite d_usize_ok by (unfold idx64; lia). reflexivity.
  - reflexivity.
  - transitivity (option_map JPushInteger (d_i32 (JNum i))); [reflexivity|]. now rewrite d_i32_ok.
Qed.
Lemma names_ok n o : Z.of_nat n <= 2 ^ 64 -> names_fit n o -> d_opt (d_vec (d_opt d_usize)) (j_names o) = Some o.
Proof.
  intros HN H. apply d_opt_ok; [discriminate|]. destruct o as [l|]; [|exact I]. cbn [opt_all]. apply d_vec_ok. eapply Forall_impl; [|exact H]. intros x Hx. apply d_opt_ok; [discriminate|].
  destruct x; cbn in *; [apply d_usize_ok; unfold idx64; lia|exact I].
Qed.
Lemma d_tagged_ok n t : Z.of_nat n <= 2 ^ 64 -> tagged_fits n t -> d_tagged_op (j_tagged_op t) = Some t.
Proof.
  intros HN (A & B & C & D & E & F & G). unfold d_tagged_op.
  transitivity (match d_op (j_op (jt_op t)), d_usize (j_nat (jt_src_file t)), d_u32 (JNum (jt_src_line t)), d_u32 (JNum (jt_src_column t)),
     d_vec d_code_pair (j_vec (fun p => JArr [JNum (fst p); j_nat (snd p)]) (jt_src_code t)), d_opt (d_vec (d_opt d_usize)) (j_names (jt_pushed_names t)), d_opt (d_vec (d_opt d_usize)) (j_names (jt_alt_pushed_names t)) with
  | Some o, Some f, Some l, Some c, Some sc, Some n, Some an => Some (JsonTaggedOp o f l c sc n an)
  | _, _, _, _, _, _, _ => None end); [reflexivity|].
  rewrite (d_op_ok n _ HN A), d_usize_ok by (unfold idx64; lia). rewrite (d_u32_ok _ C), (d_u32_ok _ D), (names_ok n _ HN F), (names_ok n _ HN G), d_vec_ok; [now destruct t|].
  eapply Forall_impl; [|exact E]. intros [w i] [H1 H2]. cbn [fst snd] in *. cbn [d_code_pair]. rewrite d_u32_ok by exact H1. rewrite d_usize_ok by (unfold idx64; lia). reflexivity.
Qed.
Lemma d_script_ok n l : Z.of_nat n <= 2 ^ 64 -> Forall (tagged_fits n) l -> d_vec d_tagged_op (j_vec j_tagged_op l) = Some l.
Proof. intros HN H. apply d_vec_ok. eapply Forall_impl; [|exact H]. intros t. now apply d_tagged_ok. Qed.
Lemma d_input_ok n i : Z.of_nat n <= 2 ^ 64 -> input_fits n i -> d_input (j_input i) = Some i.
Proof.
  intros HN (A & B & C & D & E & F & G). unfold d_input.
  transitivity (match d_usize (j_nat (ji_prev_out_hash i)), d_u32 (JNum (ji_prev_out_vout i)), d_vec d_tagged_op (j_vec j_tagged_op (ji_script i)), d_u32 (JNum (ji_sequence i)),
    d_opt (d_vec d_tagged_op) (j_opt (j_vec j_tagged_op) (ji_lock_script i)), d_opt d_u64 (j_opt JNum (ji_value i)), d_opt d_bool (j_opt JBool (ji_is_p2sh i)), d_opt (d_vec d_flags) (j_opt (j_vec j_flags) (ji_sig_hash_flags i)) with
    | Some h, Some v, Some s, Some q, Some l, Some va, Some p, Some f => Some (JsonInput h v s q l va p f) | _, _, _, _, _, _, _, _ => None end); [reflexivity|].
  rewrite d_usize_ok by (unfold idx64; lia). rewrite (d_u32_ok _ B), (d_script_ok n _ HN C), (d_u32_ok _ D).
  rewrite (d_opt_ok (j_vec j_tagged_op)); [|discriminate|destruct (ji_lock_script i); cbn in *; [now apply (d_script_ok n)|exact I]].
  rewrite (d_opt_ok JNum); [|discriminate|destruct (ji_value i); cbn [opt_all] in *; [now apply d_u64_ok|exact I]].
  rewrite (d_opt_ok JBool); [|discriminate|destruct (ji_is_p2sh i); cbn; reflexivity || exact I].
  rewrite (d_opt_ok (j_vec j_flags)); [now destruct i|discriminate|]. destruct (ji_sig_hash_flags i) as [l|]; cbn [opt_all] in *; [|exact I]. apply d_vec_ok. eapply Forall_impl; [|exact G]. intros f Hf. transitivity (d_u32 (JNum f)); [reflexivity|]. now apply d_u32_ok.
Qed.
Lemma d_output_ok n o : Z.of_nat n <= 2 ^ 64 -> output_fits n o -> d_output (j_output o) = Some o.
Proof.
  intros HN (A & B). unfold d_output. transitivity (match d_u64 (JNum (jo_value o)), d_vec d_tagged_op (j_vec j_tagged_op (jo_script o)) with Some v, Some s => Some (JsonOutput v s) | _, _ => None end); [reflexivity|].
  rewrite (d_u64_ok _ A), (d_script_ok n _ HN B). now destruct o.
Qed.
Lemma d_strs l : d_vec d_str (j_vec JStr l) = Some l. Proof. apply d_vec_ok, Forall_forall. reflexivity. Qed.
Lemma d_data_ok d : Forall entry_fits (jd_byte_arrays d) -> d_data (j_data d) = Some (reset d).
Proof.
  intros H. unfold d_data. transitivity (match d_vec d_str (j_vec JStr (jd_data_b64 d)), d_vec d_byte_array (j_vec j_byte_array (jd_byte_arrays d)), d_vec d_str (j_vec JStr (jd_strings d)) with Some b, Some a, Some s => Some (JsonData b a s [] []) | _, _, _ => None end); [reflexivity|].
  rewrite !d_strs, d_vec_ok; [reflexivity|]. eapply Forall_impl; [|exact H]. intros b. apply d_byte_array_ok.
Qed.
Lemma d_tx_ok n t : Z.of_nat n <= 2 ^ 64 -> Forall entry_fits (jd_byte_arrays (jx_data t)) -> i32_ok (jx_version t) -> u32_ok (jx_lock_time t) -> Forall (input_fits n) (jx_inputs t) -> Forall (output_fits n) (jx_outputs t) ->
  d_tx (j_tx t) = Some (JsonTx (reset (jx_data t)) (jx_version t) (jx_inputs t) (jx_outputs t) (jx_lock_time t)).
Proof.
  intros HN HE HV HL HI HO. unfold d_tx.
  transitivity (match d_data (j_data (jx_data t)), d_i32 (JNum (jx_version t)), d_vec d_input (j_vec j_input (jx_inputs t)), d_vec d_output (j_vec j_output (jx_outputs t)), d_u32 (JNum (jx_lock_time t)) with
    | Some d, Some v, Some i, Some o, Some l => Some (JsonTx d v i o l) | _, _, _, _, _ => None end); [reflexivity|].
  rewrite (d_data_ok _ HE), (d_i32_ok _ HV), (d_u32_ok _ HL), !d_vec_ok; [reflexivity| |].
  - eapply Forall_impl; [|exact HO]. intros o. now apply d_output_ok.
  - eapply Forall_impl; [|exact HI]. intros i. now apply d_input_ok.
Qed.
