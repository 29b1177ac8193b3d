(** Proofs for C49: operations do not look at annotations. *)
From Verif Require Import Base BaseLemmas Model_Encoding Proofs_Encoding Model_ByteArray Proofs_ByteArray Model_Opcode Model_Script Model_Code Model_Address Model_Destination Model_Preimage Model_TxBuilder Spec_Twin.
Local Open Scope Z_scope.
Local Open Scope list_scope.

Lemma orel_bind {A B C D} (R : A -> B -> Prop) (S : C -> D -> Prop) x y (f : A -> outcome C) (g : B -> outcome D) :
  orel R x y -> (forall a b, R a b -> orel S (f a) (g b)) -> orel S (obind x f) (obind y g).
Proof. destruct x, y; cbn; intros H K; try contradiction; auto. Qed.
Lemma orel_impl {A B} (R S : A -> B -> Prop) x y : orel R x y -> (forall a b, R a b -> S a b) -> orel S x y.
Proof. destruct x, y; cbn; intros H K; auto. Qed.
Lemma orel_omap {A B} (R : A -> A -> Prop) (S : B -> B -> Prop) (f g : A -> outcome B) l l' :
  Forall2 R l l' -> (forall a b, R a b -> orel S (f a) (g b)) -> orel (Forall2 S) (omap f l) (omap g l').
Proof.
  intros H K. induction H as [|a b l l' Hab _ IH]; [constructor|]. cbn [omap]. eapply orel_bind; [apply K, Hab|]. intros u v Huv.
  eapply orel_bind; [exact IH|]. intros us vs Hs. constructor; assumption.
Qed.
Lemma orel_expect {A} (R : A -> A -> Prop) x y : oprel R x y -> orel R (expect x) (expect y).
Proof. destruct x, y; cbn; auto. Qed.
Lemma orel_refl {A} (R : A -> A -> Prop) x : (forall a, R a a) -> orel R x x.
Proof. destruct x; cbn; auto. Qed.
Lemma orel_eq {A} (R : A -> A -> Prop) x y : x = y -> (forall a, R a a) -> orel R x y.
Proof. intros -> H. now apply orel_refl. Qed.

Definition RB (a b : barray) : Prop := ba_data a = ba_data b /\ bytes_ok (ba_data a).
Definition RR {A} (T : A -> A -> Prop) (p q : A * barray) : Prop := T (fst p) (fst q) /\ RB (snd p) (snd q).
Lemma split_twin a b n : 0 <= n -> RB a b -> orel (RR RB) (ba_split a n) (ba_split b n).
Proof.
  intros Hn [E Hb]. destruct (split_ok_iff a n Hn) as [A1 A2], (split_ok_iff b n Hn) as [B1 B2]. unfold ba_len in *. rewrite E in *.
  destruct (Z.le_gt_cases n (zlen (ba_data b))) as [H|H].
  - destruct (A1 H) as (l & r & -> & L & R), (B1 H) as (l' & r' & -> & L' & R'). unfold RR, RB. cbn. rewrite L, R, L', R'.
    split; (split; [reflexivity|]); [now apply bytes_ok_firstn|now apply bytes_ok_skipn].
  - rewrite A2, B2 by lia. reflexivity.
Qed.
Definition blind' {A} (c : codec A) (T : A -> A -> Prop) : Prop :=
  (forall a b, T a b -> orel twin_array (c_ser c a) (c_ser c b)) /\
  (forall x y, RB x y -> orel (RR T) (c_deser_rest c x) (c_deser_rest c y)).
Lemma blind_weak {A} (c : codec A) T : blind' c T -> blind c T.
Proof. intros [H K]. split; [exact H|]. intros x y E Hb. eapply orel_impl; [apply K; split; assumption|]. intros p q [H1 [H2 H3]]. auto. Qed.
Lemma blind_strong {A} (c : codec A) T : blind c T -> blind' c T.
Proof. intros [H K]. split; [exact H|]. intros x y [E Hb]. eapply orel_impl; [apply K; assumption|]. intros p q (H1 & H2 & H3). split; [exact H1|split; assumption]. Qed.

Lemma read_size_twin x y : RB x y -> orel (RR (fun n m => n = m /\ 0 <= n)) (read_size x) (read_size y).
Proof.
  intros [E Hb]. unfold read_size, ba_len. rewrite E in *. destruct (read_var_int (ba_data y)) as [[n rest]|e|] eqn:Er; cbn [obind]; [|reflexivity|exact I].
  destruct (varint_read_inv _ _ _ Hb Er) as (f & Hf & Ed).
  eapply orel_bind; [apply split_twin; [|split; [exact E|rewrite E; exact Hb]]|].
  - rewrite Ed, zlen_app. pose proof (zlen_nonneg f). lia.
  - intros [l r] [l' r'] [_ H]. cbn in *. split; [|exact H]. cbn. split; [reflexivity|]. inversion Hf as [|bs Hbs Hl Hv|bs Hbs Hl Hv|bs Hbs Hl Hv]; subst; [lia|..]; pose proof (le_value_bound bs Hbs); lia.
Qed.

Lemma concat_twin a b a' b' : twin_array a a' -> twin_array b b' -> twin_array (ba_concat a b) (ba_concat a' b').
Proof. unfold twin_array. intros H K. now rewrite !concat_data, H, K. Qed.
Lemma map_data_twin ps qs : Forall2 twin_array ps qs -> map ba_data ps = map ba_data qs.
Proof. induction 1 as [|a b l l' H _ IH]; [reflexivity|]. cbn [map]. now rewrite H, IH. Qed.
Lemma parts_twin ps qs : Forall2 twin_array ps qs -> twin_array (ba_from_parts ps) (ba_from_parts qs).
Proof. unfold twin_array at 2. intros H. now rewrite !from_parts_data, (map_data_twin _ _ H). Qed.
Lemma named_twin a b n m : twin_array a b -> twin_array (ba_named a n) (ba_named b m).
Proof. destruct a, b. exact (fun H => H). Qed.

Lemma bytearray_deser x y : RB x y -> orel (RR RB) (c_deser_rest bytearray_codec x) (c_deser_rest bytearray_codec y).
Proof.
  intros H. cbn. eapply orel_bind; [apply read_size_twin, H|]. intros [n r] [m r'] [[Hn0 Hn] Hr]. cbn [fst snd] in *. subst m.
  apply split_twin; assumption.
Qed.
Lemma bytearray_blind : blind' bytearray_codec twin_array.
Proof.
  split.
  - intros a b H. cbn. apply concat_twin; [|exact H]. unfold twin_array, ba_len in *. cbn. now rewrite H.
  - intros x y H. eapply orel_impl; [apply bytearray_deser, H|]. intros p q [[H1 _] H2]. split; assumption.
Qed.
Lemma fixed_blind n : 0 <= n -> blind' (fixed_codec n) twin_array.
Proof.
  intros Hn. split; [intros a b H; exact H|]. intros x y H. cbn. eapply orel_bind; [apply split_twin; eassumption|].
  intros [l r] [l' r'] [[H1 _] H2]. cbn in *. unfold fixed_from_byte_array, ba_len. rewrite H1. destruct (n =? zlen (ba_data l')); cbn; [|reflexivity]. split; assumption.
Qed.
Lemma int_blind n sg : blind' (int_codec n sg) eq.
Proof.
  split; [intros a b ->; reflexivity|]. intros x y H. cbn. eapply orel_bind; [apply split_twin; [lia|exact H]|].
  intros [l r] [l' r'] [[H1 _] H2]. cbn in *. split; cbn; [now rewrite H1|exact H2].
Qed.
Lemma bool_blind : blind' bool_codec eq.
Proof.
  split; [intros a b ->; reflexivity|]. intros x y H. cbn. eapply orel_bind; [apply split_twin; [lia|exact H]|].
  intros [l r] [l' r'] [[H1 _] H2]. cbn in *. split; cbn; [now rewrite H1|exact H2].
Qed.
Lemma vec_loop_twin {A} (c : codec A) T n : blind' c T -> forall x y, RB x y -> orel (RR (Forall2 T)) (vec_loop c n x) (vec_loop c n y).
Proof.
  intros [_ D]. induction n as [|n IH]; intros x y H; cbn [vec_loop].
  - split; [constructor|exact H].
  - eapply orel_bind; [apply D, H|]. intros [a r] [b r'] [H1 H2]. cbn in *. eapply orel_bind; [apply IH, H2|]. intros [l s] [l' s'] [H3 H4]. cbn in *.
    split; cbn; [constructor; assumption|exact H4].
Qed.
Lemma Forall2_zlen {A} (R : A -> A -> Prop) l l' : Forall2 R l l' -> zlen l = zlen l'.
Proof. unfold zlen. induction 1; cbn [length]; lia. Qed.
Lemma vec_blind {A} k (c : codec A) T : blind' c T -> blind' (vec_codec k c) (Forall2 T).
Proof.
  intros B. split.
  - intros a b H. cbn. eapply orel_bind; [eapply orel_omap; [exact H|apply B]|]. intros ps qs Hp. cbn.
    rewrite (Forall2_zlen _ _ _ H). apply concat_twin; [reflexivity|now apply parts_twin].
  - intros x y H. cbn [vec_codec c_deser_rest]. eapply orel_bind; [apply read_size_twin, H|]. intros [n r] [m r'] [[Hn0 Hn] Hr]. cbn [fst snd] in *. subst m.
    destruct (2 ^ 63 - 1 <? n * k); [exact I|]. now apply vec_loop_twin.
Qed.

(** scripts *)
Lemma push_twin a b m : twin_array a b -> orel twin_array (serialize_push_bytes a m) (serialize_push_bytes b m).
Proof.
  unfold twin_array at 1. intros E. unfold serialize_push_bytes. rewrite E. destruct (serialize_push_prefix (ba_data b) m) as [[v t]|e|]; cbn [obind]; [|reflexivity|exact I].
  cbn. destruct t; [|reflexivity]. apply concat_twin; [reflexivity|exact E].
Qed.
Lemma ser_op_twin o o' : twin_op o o' -> orel twin_array (serialize_op o) (serialize_op o').
Proof.
  destruct o, o'; cbn [twin_op]; intros H; try contradiction; try (rewrite H; apply orel_refl; reflexivity).
  destruct H as [H ->]. cbn [serialize_op]. now apply push_twin.
Qed.
Lemma ser_ops_twin l l' : Forall2 twin_op l l' -> orel twin_array (serialize_ops l) (serialize_ops l').
Proof.
  intros H. unfold serialize_ops. eapply orel_bind; [eapply orel_omap; [exact H|exact ser_op_twin]|]. intros ps qs Hp. cbn. now apply parts_twin.
Qed.
Lemma script_ops_twin s s' : twin_script s s' -> Forall2 twin_op (map t_op s) (map t_op s').
Proof. induction 1; cbn; constructor; auto. Qed.
Lemma script_ser_twin s s' : twin_script s s' -> orel twin_array (script_ser_ops s) (script_ser_ops s').
Proof.
  intros H. unfold script_ser_ops. pose proof (ser_ops_twin _ _ (script_ops_twin _ _ H)) as K. destruct (serialize_ops (map t_op s)), (serialize_ops (map t_op s')); cbn in *; try contradiction; auto.
Qed.
Lemma push_prefix_twin a b : RB a b -> serialize_push_prefix (ba_data a) true = serialize_push_prefix (ba_data b) true.
Proof. intros [-> _]. reflexivity. Qed.
Lemma head_byte a b : RB a b -> nth 0 (ba_data a) 0 = nth 0 (ba_data b) 0 /\ 0 <= nth 0 (ba_data a) 0.
Proof. intros [E H]. split; [now rewrite E|]. destruct (ba_data a) as [|x d]; cbn; [lia|]. apply bytes_ok_cons in H. unfold byte_ok in H. lia. Qed.
Lemma le_twin a b : RB a b -> le_value (ba_data a) = le_value (ba_data b) /\ 0 <= le_value (ba_data a).
Proof. intros [E H]. split; [now rewrite E|]. pose proof (le_value_bound _ H). lia. Qed.
Lemma deser_op_twin x y : RB x y -> orel (RR twin_op) (deser_op_ba x) (deser_op_ba y).
Proof.
  intros H. unfold deser_op_ba. eapply orel_bind; [apply split_twin; [lia|exact H]|]. intros [h c] [h' c'] [Hh Hc]. cbn [fst snd] in *.
  destruct (head_byte _ _ Hh) as [E N]. rewrite <- E. remember (nth 0 (ba_data h) 0) as byte. clear Heqbyte E. cbv zeta.
  destruct (byte =? 0); [split; [reflexivity|exact Hc]|].
  match goal with |- orel _ (match ?p with _ => _ end) (match ?q with _ => _ end) =>
    assert (oprel (orel (RR (fun n m => n = m /\ 0 <= n))) p q) as K end.
  { destruct ((1 <=? byte) && (byte <=? 0x4b)); [cbn; split; cbn; [auto|exact Hc]|].
    destruct (byte =? opcode_u8 OP_PUSHDATA1).
    { cbn [oprel]. eapply orel_bind; [apply split_twin; [lia|exact Hc]|]. intros [l r] [l' r'] [Hl Hr]. split; [apply head_byte, Hl|exact Hr]. }
    destruct (byte =? opcode_u8 OP_PUSHDATA2).
    { cbn [oprel]. eapply orel_bind; [apply split_twin; [lia|exact Hc]|]. intros [l r] [l' r'] [Hl Hr]. split; [apply le_twin, Hl|exact Hr]. }
    destruct (byte =? opcode_u8 OP_PUSHDATA4); [|exact I].
    cbn [oprel]. eapply orel_bind; [apply split_twin; [lia|exact Hc]|]. intros [l r] [l' r'] [Hl Hr]. split; [apply le_twin, Hl|exact Hr]. }
  match goal with |- orel _ (match ?p with _ => _ end) (match ?q with _ => _ end) => destruct p as [p1|], q as [q1|]; cbn [oprel] in K; try contradiction end.
  - eapply orel_bind; [exact K|]. intros [n c2] [n' c2'] [[Hn0 Hn] Hc2]. cbn [fst snd] in *. subst n'. eapply orel_bind; [apply split_twin; eassumption|]. intros [v c3] [v' c3'] [Hv Hc3]. cbn [fst snd] in *.
    rewrite (push_prefix_twin _ _ Hv). destruct (serialize_push_prefix (ba_data v') true) as [[pf t]|e|]; cbn [obind]; [|reflexivity|exact I].
    split; cbn; [split; [apply Hv|reflexivity]|exact Hc3].
  - split; cbn; [|exact Hc]. unfold op_of_byte. destruct (opcode_from_u8 byte); reflexivity.
Qed.
Lemma deser_loop_twin n : forall x y, RB x y -> orel (Forall2 twin_op) (deser_loop_ba n x) (deser_loop_ba n y).
Proof.
  induction n as [|n IH]; intros x y H; cbn [deser_loop_ba]; unfold ba_len; rewrite (proj1 H); destruct (zlen (ba_data y) =? 0); try constructor.
  eapply orel_bind; [apply deser_op_twin, H|]. intros [o r] [o' r'] [H1 H2]. cbn [fst snd] in *. eapply orel_bind; [apply IH, H2|]. intros l l' Hl. constructor; assumption.
Qed.
Lemma deser_ops_twin x y : RB x y -> orel (Forall2 twin_op) (deserialize_ops_ba x) (deserialize_ops_ba y).
Proof. intros H. unfold deserialize_ops_ba. rewrite (proj1 H). now apply deser_loop_twin. Qed.
Lemma from_ops_twin l l' : Forall2 twin_op l l' -> twin_script (script_from_ops l) (script_from_ops l').
Proof. induction 1; cbn; constructor; auto. Qed.
Lemma script_blind : blind' script_codec twin_script.
Proof.
  split.
  - intros s s' H. cbn [script_codec c_ser]. eapply orel_bind; [apply script_ser_twin, H|]. intros a b Hab. now apply bytearray_blind.
  - intros x y H. cbn [script_codec c_deser_rest]. eapply orel_bind; [apply bytearray_deser, H|]. intros [c t] [c' t'] [Hc Ht]. cbn [fst snd] in *.
    eapply orel_bind; [apply deser_ops_twin, Hc|]. intros o o' Ho. split; cbn; [now apply from_ops_twin|exact Ht].
Qed.

(** derived codecs *)
Lemma sha_blind : blind' sha256d_codec twin_array. Proof. apply fixed_blind. lia. Qed.
Lemma u32_blind : blind' u32_codec eq. Proof. apply int_blind. Qed.
Lemma i32_blind : blind' i32_codec eq. Proof. apply int_blind. Qed.
Lemma u64_blind : blind' u64_codec eq. Proof. apply int_blind. Qed.
Ltac tw_parts := apply parts_twin; repeat (apply Forall2_cons; [apply named_twin; assumption|]); apply Forall2_nil.
Ltac tw_step B := eapply orel_bind; [eapply (proj2 B); eassumption|]; let a := fresh "a" in let r := fresh "r" in let b := fresh "b" in let r' := fresh "r'" in
  intros [a r] [b r'] [? ?]; cbn [fst snd] in *.
Ltac tw_ser B := eapply orel_bind; [eapply (proj1 B); eassumption|]; let a := fresh "a" in let b := fresh "b" in intros a b ?.
Lemma outpoint_blind : blind' outpoint_codec twin_outpoint.
Proof.
  split.
  - intros a b [H1 H2]. cbn [outpoint_codec c_ser]. tw_ser sha_blind. tw_ser u32_blind. cbn [orel]. tw_parts.
  - intros x y H. cbn [outpoint_codec c_deser_rest]. tw_step sha_blind. tw_step u32_blind. split; cbn [fst snd]; [split; assumption|assumption].
Qed.
Lemma input_blind : blind' input_codec twin_input.
Proof.
  split.
  - intros a b (H1 & H2 & H3 & _). cbn [input_codec c_ser]. tw_ser outpoint_blind. tw_ser script_blind. tw_ser u32_blind. cbn [orel]. tw_parts.
  - intros x y H. cbn [input_codec c_deser_rest]. tw_step outpoint_blind. tw_step script_blind. tw_step u32_blind. split; cbn [fst snd]; [|assumption].
    unfold twin_input. cbn [in_prev_out in_script in_sequence in_lock_script in_value in_is_p2sh in_sig_hash_flags oprel]. auto 10.
Qed.
Lemma output_blind : blind' output_codec twin_output.
Proof.
  split.
  - intros a b (H1 & H2). cbn [output_codec c_ser]. tw_ser u64_blind. tw_ser script_blind. cbn [orel]. tw_parts.
  - intros x y H. cbn [output_codec c_deser_rest]. tw_step u64_blind. tw_step script_blind. split; cbn [fst snd]; [split; assumption|assumption].
Qed.
Lemma unhashed_blind si so : blind' (unhashed_tx_codec si so) twin_tx.
Proof.
  pose proof (vec_blind si _ _ input_blind) as VI. pose proof (vec_blind so _ _ output_blind) as VO. split.
  - intros a b (H1 & H2 & H3 & H4). cbn [unhashed_tx_codec c_ser]. tw_ser i32_blind. tw_ser VI. tw_ser VO. tw_ser u32_blind. cbn [orel]. tw_parts.
  - intros x y H. cbn [unhashed_tx_codec c_deser_rest]. tw_step i32_blind. tw_step VI. tw_step VO. tw_step u32_blind. split; cbn [fst snd]; [|assumption].
    unfold twin_tx. cbn [tx_version tx_inputs tx_outputs tx_lock_time]. auto.
Qed.
Lemma tx_refl : twin_tx unhashed_tx_default unhashed_tx_default.
Proof. repeat split; constructor. Qed.
Lemma tx_blind : blind' tx_codec twin_hashed.
Proof.
  split.
  - intros a b (_ & _ & H). cbn [tx_codec c_ser]. tw_ser bytearray_blind. cbn [orel]. tw_parts.
  - intros x y H. cbn [tx_codec c_deser_rest]. tw_step bytearray_blind. split; cbn [fst snd]; [|assumption]. split; [apply tx_refl|]. split; [reflexivity|assumption].
Qed.
Lemma preimage_blind : blind' preimage_codec twin_preimage.
Proof.
  split.
  - intros p q (H1 & H2 & H3 & H4 & H5 & H6 & H7 & H8 & H9 & H10). cbn [preimage_codec c_ser].
    tw_ser i32_blind. tw_ser sha_blind. tw_ser sha_blind. tw_ser outpoint_blind. tw_ser script_blind. tw_ser u64_blind. tw_ser u32_blind. tw_ser sha_blind. tw_ser u32_blind. tw_ser u32_blind. cbn [orel]. tw_parts.
  - intros x y H. cbn [preimage_codec c_deser_rest]. tw_step i32_blind. tw_step sha_blind. tw_step sha_blind. tw_step outpoint_blind. tw_step script_blind. tw_step u64_blind. tw_step u32_blind. tw_step sha_blind. tw_step u32_blind. tw_step u32_blind.
    split; cbn [fst snd]; [|assumption]. unfold twin_preimage. cbn [pi_version pi_hash_prevouts pi_hash_sequence pi_outpoint pi_script_code pi_value pi_sequence pi_hash_outputs pi_lock_time pi_sig_hash_type]. auto 15.
Qed.
Lemma c_deser_twin {A} (c : codec A) T x y : blind' c T -> RB x y -> orel T (c_deser c x) (c_deser c y).
Proof.
  intros B H. unfold c_deser. eapply orel_bind; [apply B, H|]. intros [a r] [b r'] [H1 [H2 _]]. cbn [fst snd] in *. unfold ba_len. rewrite H2. destruct (zlen (ba_data r') =? 0); [exact H1|reflexivity].
Qed.
Lemma decode_twin {A} (c : codec A) T : blind' c T -> forall fuel x y l l', RB x y -> Forall2 T l l' ->
  oprel (orel (Forall2 T)) (decode_all_loop c fuel x l) (decode_all_loop c fuel y l').
Proof.
  intros B. induction fuel as [|n IH]; intros x y l l' H Hl; cbn [decode_all_loop]; [exact I|].
  pose proof (proj2 B x y H) as K. destruct (c_deser_rest c x) as [[a r]| |], (c_deser_rest c y) as [[b r']| |]; cbn [orel] in K; try contradiction; cbn [oprel orel]; auto.
  destruct K as [K1 K2]. cbn [fst snd] in *. assert (Forall2 T (l ++ [a]) (l' ++ [b])) as HL by (apply Forall2_app; auto).
  unfold ba_len. rewrite (proj1 K2). destruct (zlen (ba_data r') =? 0); [exact HL|]. now apply IH.
Qed.
Lemma digest_twin sha a b : twin_array a b -> orel twin_array (digest_sha256d sha a) (digest_sha256d sha b).
Proof.
  unfold twin_array at 1. intros H. unfold digest_sha256d, fixed_from_byte_array, ba_apply_function, ba_len. cbn [ba_data]. rewrite H. destruct (32 =? zlen (sha (ba_data b))); [reflexivity|exact I].
Qed.
Lemma hashed_twin sha si so t t' : twin_tx t t' -> orel twin_hashed (tx_hashed sha si so t) (tx_hashed sha si so t').
Proof.
  intros H. unfold tx_hashed. tw_ser (unhashed_blind si so). eapply orel_bind; [apply digest_twin; eassumption|]. intros h h' Hh. cbn. split; [exact H|]. split; assumption.
Qed.

(** script code *)
Lemma op_code_twin o o' : twin_op o o' -> op_eqb o (OCode OP_CODESEPARATOR) = op_eqb o' (OCode OP_CODESEPARATOR).
Proof. destruct o, o'; cbn [twin_op]; intros H; try contradiction; try (now rewrite H); try reflexivity. Qed.
Lemma skipn_twin s s' n : twin_script s s' -> twin_script (skipn n s) (skipn n s').
Proof. intros H. revert n. induction H as [|a b l l' Hab Hl IH]; intros [|n]; cbn; [constructor|constructor|constructor; assumption|apply IH]. Qed.
Lemma position_twin s s' : twin_script s s' -> position (fun t => op_eqb (t_op t) (OCode OP_CODESEPARATOR)) s = position (fun t => op_eqb (t_op t) (OCode OP_CODESEPARATOR)) s'.
Proof. induction 1 as [|a b l l' H _ IH]; [reflexivity|]. cbn [position]. rewrite (op_code_twin _ _ H). destruct (op_eqb (t_op b) (OCode OP_CODESEPARATOR)); [reflexivity|]. now rewrite IH. Qed.
Lemma code_first_twin s s' : twin_script s s' -> twin_script (to_script_code_first s) (to_script_code_first s').
Proof. intros H. unfold to_script_code_first. rewrite (position_twin _ _ H). destruct (position _ s') as [n|]; [now apply skipn_twin|exact H]. Qed.
Lemma find_twin s s' : twin_script s s' -> forall i n f, find_codesep s i n f = find_codesep s' i n f.
Proof.
  induction 1 as [|a b l l' H _ IH]; intros i n f; [reflexivity|]. cbn [find_codesep]. unfold twin_tagged in H. destruct (t_op a) as [c| | | |], (t_op b) as [c'| | | |]; cbn [twin_op] in H; try contradiction; try discriminate; auto.
  injection H as <-. destruct c; auto. destruct (Nat.eqb n f); auto.
Qed.
Lemma script_code_twin s s' n : twin_script s s' -> orel twin_script (to_script_code s n) (to_script_code s' n).
Proof. intros H. unfold to_script_code. destruct n as [n|]; [|exact H]. rewrite (find_twin _ _ H). destruct (find_codesep s' 0 n 0); [now apply skipn_twin|exact I]. Qed.

(** preimages *)
Definition twin_sig_input (a b : sig_input) : Prop :=
  twin_outpoint (si_outpoint a) (si_outpoint b) /\ si_sequence a = si_sequence b /\ si_flags a = si_flags b /\ si_value a = si_value b /\ oprel twin_script (si_lock_script a) (si_lock_script b).
Definition twin_sig_tx (a b : sig_tx) : Prop :=
  st_version a = st_version b /\ Forall2 twin_sig_input (st_inputs a) (st_inputs b) /\ Forall2 twin_output (st_outputs a) (st_outputs b) /\ st_lock_time a = st_lock_time b.
Lemma concat_loop_twin {A} (R : A -> A -> Prop) ser lbl l l' : Forall2 R l l' -> (forall a b, R a b -> orel twin_array (ser a) (ser b)) ->
  forall i acc acc', twin_array acc acc' -> orel twin_array (concat_loop ser lbl i l acc) (concat_loop ser lbl i l' acc').
Proof.
  intros H K. induction H as [|a b l l' Hab _ IH]; intros i acc acc' Ha; cbn [concat_loop]; [exact Ha|]. eapply orel_bind; [apply K, Hab|]. intros x y Hxy. apply IH. apply concat_twin; [exact Ha|now apply named_twin].
Qed.
Lemma hash_all_twin {A} sha (R : A -> A -> Prop) ser a1 a2 a3 l l' : Forall2 R l l' -> (forall a b, R a b -> orel twin_array (ser a) (ser b)) ->
  orel twin_array (hash_all sha ser a1 a2 a3 l) (hash_all sha ser a1 a2 a3 l').
Proof.
  intros H K. unfold hash_all. eapply orel_bind; [eapply concat_loop_twin; [exact H|exact K|reflexivity]|]. intros x y Hxy. eapply orel_bind; [apply digest_twin, named_twin, Hxy|]. intros u v Huv. cbn. now apply named_twin.
Qed.
Lemma Forall2_nth {A} (R : A -> A -> Prop) l l' n : Forall2 R l l' -> oprel R (nth_error l n) (nth_error l' n).
Proof. intros H. revert n. induction H as [|a b l l' Hab Hl IH]; intros [|n]; cbn; [exact I|exact I|exact Hab|apply IH]. Qed.
Lemma Forall2_len' {A} (R : A -> A -> Prop) l l' : Forall2 R l l' -> length l = length l'.
Proof. induction 1; cbn; congruence. Qed.
Lemma build_preimage_twin sha t t' hp hp' hs hs' ho ho' idx i i' f : twin_sig_tx t t' -> twin_array hp hp' -> twin_array hs hs' -> twin_array ho ho' -> twin_sig_input i i' ->
  orel twin_preimage (build_preimage sha t hp hs ho idx i f) (build_preimage sha t' hp' hs' ho' idx i' f).
Proof.
  intros (T1 & T2 & T3 & T4) P S O (I1 & I2 & I3 & I4 & I5). unfold build_preimage. cbv zeta. eapply orel_bind.
  { instantiate (1 := twin_array). destruct (_ && _); [exact O|]. rewrite (Forall2_len' _ _ _ T3). destruct (_ && _); [|reflexivity].
    pose proof (Forall2_nth _ _ _ idx T3) as N. destruct (nth_error (st_outputs t) idx), (nth_error (st_outputs t') idx); cbn [oprel] in N; try contradiction; [|exact I].
    tw_ser output_blind. now apply digest_twin. }
  intros h h' Hh. eapply orel_bind; [apply orel_expect, I5|]. intros l l' Hl. rewrite I4. eapply orel_bind; [apply (orel_refl eq); reflexivity|]. intros v v' <-. cbn [orel].
  unfold twin_preimage. cbn [pi_version pi_hash_prevouts pi_hash_sequence pi_outpoint pi_script_code pi_value pi_sequence pi_hash_outputs pi_lock_time pi_sig_hash_type].
  split; [exact T1|]. split; [destruct (negb _); [exact P|reflexivity]|]. split; [destruct (_ && _); [exact S|reflexivity]|]. split; [exact I1|]. split; [now apply code_first_twin|]. auto.
Qed.
Lemma build_inputs_twin sha t t' hp hp' hs hs' ho ho' : twin_sig_tx t t' -> twin_array hp hp' -> twin_array hs hs' -> twin_array ho ho' -> forall l l' idx, Forall2 twin_sig_input l l' ->
  orel (Forall2 (Forall2 twin_preimage)) (build_inputs sha t hp hs ho idx l) (build_inputs sha t' hp' hs' ho' idx l').
Proof.
  intros T P S O l l' idx H. revert idx. induction H as [|i i' l l' Hi _ IH]; intros idx; cbn [build_inputs]; [constructor|].
  assert (si_flags i = si_flags i') as Ef by apply Hi. rewrite <- Ef.
  eapply orel_bind; [eapply (orel_omap eq); [clear; induction (si_flags i); constructor; auto|intros f g <-; now apply build_preimage_twin]|]. intros ps qs Hp. eapply orel_bind; [apply IH|]. intros r r' Hr. constructor; assumption.
Qed.
Lemma Forall2_maps {A B} (R : A -> A -> Prop) (S : B -> B -> Prop) (f g : A -> B) l l' : Forall2 R l l' -> (forall a b, R a b -> S (f a) (g b)) -> Forall2 S (map f l) (map g l').
Proof. intros H K. induction H; cbn; constructor; auto. Qed.
Lemma build_preimages_twin sha t t' : twin_sig_tx t t' -> orel (Forall2 (Forall2 twin_preimage)) (build_preimages sha t) (build_preimages sha t').
Proof.
  intros T. pose proof T as (T1 & T2 & T3 & T4). unfold build_preimages.
  eapply orel_bind; [eapply hash_all_twin; [eapply Forall2_maps; [exact T2|intros a b H; exact (proj1 H)]|apply outpoint_blind]|]. intros hp hp' P.
  eapply orel_bind; [eapply (hash_all_twin _ eq); [eapply Forall2_maps; [exact T2|intros a b H; apply H]|apply u32_blind]|]. intros hs hs' S.
  eapply orel_bind; [eapply hash_all_twin; [exact T3|apply output_blind]|]. intros ho ho' O. now apply build_inputs_twin.
Qed.
Lemma tx_preimages_twin sha t t' fl : twin_tx t t' -> orel (Forall2 (Forall2 twin_preimage)) (tx_preimages sha t fl) (tx_preimages sha t' fl).
Proof.
  intros (H1 & H2 & H3 & H4). apply build_preimages_twin. unfold sig_tx_of, twin_sig_tx. cbn [st_version st_inputs st_outputs st_lock_time]. split; [exact H1|]. split; [|auto].
  eapply Forall2_maps; [exact H2|]. intros a b (A1 & A2 & A3 & A4 & A5 & _). unfold twin_sig_input. cbn [si_outpoint si_sequence si_flags si_value si_lock_script]. auto.
Qed.

(** destinations *)
Lemma pattern_twin s s' : twin_script s s' -> map (fun t => to_pattern (t_op t)) s = map (fun t => to_pattern (t_op t)) s'.
Proof.
  induction 1 as [|a b l l' H _ IH]; [reflexivity|]. cbn [map]. rewrite IH. f_equal. unfold twin_tagged in H. destruct (t_op a), (t_op b); cbn [twin_op] in H; try contradiction; try (now rewrite H). destruct H as [H _]. cbn. now rewrite H.
Qed.
Lemma address_refl a : twin_address a a. Proof. repeat split. Qed.
Lemma spend_twin s s' : twin_script s s' -> script_p2pkh_spend s = script_p2pkh_spend s'.
Proof. intros H. unfold script_p2pkh_spend. now rewrite (pattern_twin _ _ H). Qed.
Lemma destination_twin p s s' : twin_script s s' -> orel twin_destination (script_destination p s) (script_destination p s').
Proof.
  intros H. unfold script_destination. rewrite (pattern_twin _ _ H). 
  assert (orel twin_destination (Ok (Unknown s)) (Ok (Unknown s'))) as U by exact H.
  assert (orel twin_destination (Ok (Nulldata (map t_op (skipn 1 s)))) (Ok (Nulldata (map t_op (skipn 1 s'))))) as N.
  { exact (script_ops_twin _ _ (skipn_twin _ _ 1 H)). }
  assert (forall t h, orel twin_destination (do h <- expect_hash160 h; do a <- from_hash p t h; Ok (DAddress a)) (do h <- expect_hash160 h; do a <- from_hash p t h; Ok (DAddress a))) as A.
  { intros t h. eapply orel_bind; [apply (orel_refl eq); reflexivity|]. intros x y <-. eapply orel_bind; [apply (orel_refl eq); reflexivity|]. intros a b <-. apply address_refl. }
  repeat first [exact U | exact N | apply A | exact (eq_refl _) | match goal with |- orel _ (match ?x with _ => _ end) _ => destruct x end].
Qed.

(** the transaction builder *)
Section Builder.
Context {sigs : Z -> Type} (twin_sig : forall ty, sigs ty -> sigs ty -> Prop).
Notation tany := (twin_any twin_sig). Notation tbin := (twin_builder_input twin_sig). Notation tb := (twin_builder twin_sig). Notation tu := (twin_unsigned twin_sig).
Lemma downcast_twin ty a b : tany a b -> oprel (twin_sig ty) (downcast ty a) (downcast ty b).
Proof. intros [t v w H]. unfold downcast. cbn [any_type any_val]. destruct (Z.eq_dec t ty) as [e|]; [|exact I]. destruct e. exact H. Qed.
Lemma app_twin s s' r r' : twin_script s s' -> twin_script r r' -> twin_script (s ++ r) (s' ++ r').
Proof. intros H K. now apply Forall2_app. Qed.
Lemma signatory_twin_script s s' : twin_signatory twin_sig s s' -> forall (E : s_type s = s_type s') pre pre' est v w lock lock' outs outs',
  Forall2 twin_preimage pre pre' -> twin_sig (s_type s') (eq_rect _ sigs v _ E) w -> twin_script lock lock' -> Forall2 twin_output outs outs' ->
  orel twin_script (s_script s pre est v lock outs) (s_script s' pre' est w lock' outs').
Proof.
  intros [ty p p' sh k k' Hp Hk]. cbn [s_type]. intros E pre pre' est v w lock lock' outs outs' Hpre Hv Hl Ho.
  rewrite (Eqdep_dec.UIP_dec Z.eq_dec E eq_refl) in Hv. cbn [eq_rect] in Hv. unfold s_script. eapply orel_bind.
  { instantiate (1 := twin_script). unfold s_build. cbn [s_kind s_type]. destruct k as [f b|f b], k' as [f' b'|f' b']; cbn [twin_kind] in Hk; try contradiction; destruct Hk as [_ Hk].
    - destruct Hpre; [exact I|]. now apply Hk.
    - now apply Hk. }
  intros o o' Hoo. cbn [s_is_p2sh]. destruct sh; [|exact Hoo]. eapply orel_bind; [apply script_ser_twin, Hl|]. intros a b Hab. cbn [orel]. apply app_twin; [exact Hoo|]. constructor; [|constructor]. unfold twin_tagged. cbn. auto.
Qed.
Lemma signatory_twin_func s s' : twin_signatory twin_sig s s' -> twin_func twin_sig (signatory_func s) (signatory_func s').
Proof.
  intros H pre pre' est sg sg' lock lock' outs outs' Hpre Hs Hl Ho. pose proof H as H0. destruct H0 as [ty p p' sh k k' Hp Hk]. unfold signatory_func. cbn [s_type s_placeholder]. eapply orel_bind.
  { instantiate (1 := twin_sig ty). destruct sg as [a|], sg' as [b|]; cbn [oprel] in Hs; try contradiction; [|exact Hp]. apply orel_expect, downcast_twin, Hs. }
  intros v w Hv. now apply (signatory_twin_script _ _ H eq_refl).
Qed.
Lemma signatory_flags s s' : twin_signatory twin_sig s s' -> s_flags s = s_flags s' /\ s_is_p2sh s = s_is_p2sh s'.
Proof. intros [ty p p' sh k k' _ Hk]. unfold s_flags. cbn [s_kind s_is_p2sh]. split; [|reflexivity]. destruct k as [f b|f b], k' as [f' b'|f' b']; cbn [twin_kind] in Hk; try contradiction; destruct Hk as [-> _]; reflexivity. Qed.
Lemma add_input_twin b b' i i' l l' s s' : tb b b' -> twin_unsigned_input i i' -> twin_script l l' -> twin_signatory twin_sig s s' ->
  tb (fst (add_input b i l s)) (fst (add_input b' i' l' s')) /\ snd (add_input b i l s) = snd (add_input b' i' l' s').
Proof.
  intros (B1 & B2 & B3 & B4 & B5) Hi Hl Hs. destruct (signatory_flags _ _ Hs) as [F1 F2]. split; [|cbn; apply (Forall2_len' _ _ _ B2)].
  unfold add_input. cbn [fst]. split; [exact B1|]. split; [|auto]. cbn [b_inputs]. apply Forall2_app; [exact B2|]. constructor; [|constructor].
  unfold twin_builder_input. cbn [bi_input bi_func bi_flags bi_lock_script bi_is_p2sh bi_signed oprel]. split; [exact Hi|]. split; [now apply signatory_twin_func|]. rewrite F2. auto.
Qed.
Lemma add_builder_output_twin b b' o o' : tb b b' -> twin_builder_output o o' -> tb (add_builder_output b o) (add_builder_output b' o').
Proof. intros (B1 & B2 & B3 & B4 & B5) Ho. split; [exact B1|]. split; [exact B2|]. split; [|auto]. cbn. apply Forall2_app; [exact B3|]. constructor; [exact Ho|constructor]. Qed.
Lemma new_twin v l f : tb (new_with_fee sigs v l f) (new_with_fee sigs v l f).
Proof. repeat split; constructor. Qed.
Lemma from_tx_twin t t' : twin_tx t t' -> tb (from_tx sigs t) (from_tx sigs t').
Proof.
  intros (T1 & T2 & T3 & T4). unfold from_tx. split; [exact T1|]. cbn [b_inputs b_outputs b_lock_time b_fee_per_kb]. split; [|split; [eapply Forall2_maps; [exact T3|intros a b H; exact H]|auto]].
  eapply Forall2_maps; [exact T2|]. intros a b Hab. pose proof Hab as (A1 & A2 & A3 & A4 & A5 & A6 & A7). unfold twin_builder_input, from_tx_input. cbn [bi_input bi_func bi_flags bi_lock_script bi_is_p2sh bi_signed oprel].
  split; [unfold twin_unsigned_input; cbn; rewrite A5; auto|]. split; [intros pre pre' est sg sg' lock lock' outs outs' _ _ _ _; exact A2|]. rewrite A7. auto.
Qed.
Lemma repeat_twin {A} (R : A -> A -> Prop) a b n : R a b -> Forall2 R (repeat a n) (repeat b n).
Proof. intros H. induction n; constructor; auto. Qed.
Lemma empty_twin l l' : twin_script l l' -> twin_preimage (empty_with_script l) (empty_with_script l').
Proof. intros H. unfold twin_preimage, empty_with_script. cbn [pi_version pi_hash_prevouts pi_hash_sequence pi_outpoint pi_script_code pi_value pi_sequence pi_hash_outputs pi_lock_time pi_sig_hash_type]. repeat (split; [reflexivity|]). split; [split; reflexivity|]. split; [now apply code_first_twin|]. repeat split. Qed.
Lemma estimate_input_twin outs outs' i i' : Forall2 twin_output outs outs' -> tbin i i' -> orel twin_input (estimate_input outs i) (estimate_input outs' i').
Proof.
  intros Ho ((I1 & I2 & I3) & If & Iflags & Il & Ip & Is). unfold estimate_input. rewrite Iflags. destruct (bi_lock_script i) as [l|], (bi_lock_script i') as [l'|]; cbn [oprel] in Il; try contradiction.
  - eapply orel_bind; [apply If; [apply repeat_twin, empty_twin, Il|exact I|exact Il|exact Ho]|]. intros s s' Hs. unfold twin_input. cbn [orel in_prev_out in_script in_sequence in_lock_script in_value in_is_p2sh in_sig_hash_flags oprel]. auto 10.
  - eapply orel_bind; [apply If; [constructor|exact I|constructor|exact Ho]|]. intros s s' Hs. unfold twin_input. cbn [orel in_prev_out in_script in_sequence in_lock_script in_value in_is_p2sh in_sig_hash_flags oprel]. auto 10.
Qed.
Lemma estimate_twin b b' outs outs' : tb b b' -> Forall2 twin_output outs outs' -> estimate_size b outs = estimate_size b' outs'.
Proof.
  intros (B1 & B2 & B3 & B4 & B5) Ho. assert (orel eq (estimate_size b outs) (estimate_size b' outs')) as K.
  { unfold estimate_size. eapply orel_bind; [eapply orel_omap; [exact B2|intros i i' Hi; now apply estimate_input_twin]|]. intros l l' Hl.
    eapply orel_bind; [apply (proj1 (unhashed_blind 1 1)); split; [exact B1|]; split; [exact Hl|]; split; [exact Ho|exact B4]|]. intros x y Hxy. cbn. unfold ba_len. now rewrite Hxy. }
  destruct (estimate_size b outs), (estimate_size b' outs'); cbn in K; try contradiction; congruence.
Qed.
Lemma make_outputs_twin m outs outs' : Forall2 twin_builder_output outs outs' -> forall i, Forall2 twin_output (make_outputs_from m i outs) (make_outputs_from m i outs').
Proof.
  induction 1 as [|o o' l l' H _ IH]; intros i; [constructor|]. destruct o as [o|lo up pr s], o' as [o'|lo' up' pr' s']; cbn [twin_builder_output] in H; try contradiction; cbn [make_outputs_from]; [constructor; auto|].
  destruct H as (_ & _ & _ & Hs). destruct (m i); [constructor; [split; [reflexivity|exact Hs]|]|]; auto.
Qed.
Lemma sig_tx_twin b b' outs outs' : tb b b' -> Forall2 twin_output outs outs' -> twin_sig_tx (builder_sig_tx b outs) (builder_sig_tx b' outs').
Proof.
  intros (B1 & B2 & B3 & B4 & B5) Ho. split; [exact B1|]. split; [|split; [exact Ho|exact B4]]. cbn [builder_sig_tx st_inputs]. eapply Forall2_maps; [exact B2|].
  intros a c ((I1 & I2 & I3) & If & Iflags & Il & Ip & Is). unfold twin_sig_input. cbn [si_outpoint si_sequence si_flags si_value si_lock_script oprel]. rewrite I3. split; [exact I1|]. split; [exact I2|]. split; [exact Iflags|]. split; [reflexivity|].
  destruct (bi_lock_script a), (bi_lock_script c); cbn [oprel] in Il; try contradiction; [exact Il|constructor].
Qed.
Lemma presigned_twin i i' : tbin i i' -> oprel twin_input (presigned i) (presigned i').
Proof.
  intros (_ & _ & _ & _ & _ & Is). unfold presigned. destruct (bi_signed i) as [a|], (bi_signed i') as [b|]; cbn [oprel] in Is; try contradiction; [|exact I].
  pose proof Is as (_ & A2 & _). destruct A2; [exact I|exact Is].
Qed.
Lemma u64_orel release v : orel eq (u64_of release v) (u64_of release v). Proof. now apply orel_refl. Qed.
Lemma known_twin outs outs' : Forall2 twin_builder_output outs outs' -> orel (Forall2 twin_output) (known_outputs outs) (known_outputs outs') /\ map get_value outs = map get_value outs' /\
  forall i, leftovers_from i outs = leftovers_from i outs'.
Proof.
  induction 1 as [|o o' l l' H _ (IH1 & IH2 & IH3)]; [split; [constructor|split; reflexivity]|]. destruct o as [o|lo up pr s], o' as [o'|lo' up' pr' s']; cbn [twin_builder_output] in H; try contradiction.
  - split; [cbn [known_outputs]; eapply orel_bind; [exact IH1|]; intros t t' Ht; constructor; assumption|]. split; [cbn [map get_value]; rewrite IH2; destruct H as [-> _]; reflexivity|]. intros i. cbn [leftovers_from]. apply IH3.
  - destruct H as (-> & -> & -> & Hs). split; [reflexivity|]. split; [cbn [map get_value]; now rewrite IH2|]. intros i. cbn [leftovers_from]. now rewrite IH3.
Qed.
Lemma place_twin release b b' i lo up st : tb b b' -> place release b i lo up st = place release b' i lo up st.
Proof.
  intros B. destruct st as [[total m] est]. unfold place. destruct (total <=? lo); [reflexivity|]. cbv zeta. unfold make_outputs. pose proof B as (B1 & B2 & B3 & B4 & B5).
  rewrite (estimate_twin b b' _ _ B (make_outputs_twin _ _ _ B3 0%nat)). rewrite B5. reflexivity.
Qed.
Lemma place_all_twin release b b' : tb b b' -> forall l st, place_all release b l st = place_all release b' l st.
Proof.
  intros B. induction l as [|[i p] l IH]; intros st; [reflexivity|]. cbn [place_all]. pose proof B as (B1 & B2 & B3 & B4 & B5). pose proof (Forall2_nth _ _ _ i B3) as N.
  destruct (nth_error (b_outputs b) i) as [[o|lo up pr s]|], (nth_error (b_outputs b') i) as [[o'|lo' up' pr' s']|]; cbn [oprel twin_builder_output] in N; try contradiction; auto.
  destruct N as (-> & -> & _). rewrite (place_twin release b b' i lo' up' st B). destruct (place release b' i lo' up' st); cbn [obind]; auto.
Qed.
Lemma map_values_twin l l' : Forall2 tbin l l' -> map (fun i => ui_value (bi_input i)) l = map (fun i => ui_value (bi_input i)) l'.
Proof. induction 1 as [|a b l l' H _ IH]; [reflexivity|]. cbn [map]. rewrite IH. destruct H as ((_ & _ & ->) & _). reflexivity. Qed.
Lemma build_twin sha release b b' : tb b b' -> orel tu (build sha release b) (build sha release b').
Proof.
  intros B. pose proof B as (B1 & B2 & B3 & B4 & B5). destruct (known_twin _ _ B3) as (K1 & K2 & K3). unfold build, known_output_sum, input_sum. rewrite K2, (map_values_twin _ _ B2).
  destruct (u64_sum release 0 (map get_value (b_outputs b'))) as [k| |]; cbn [obind]; [|reflexivity|exact I].
  destruct (u64_sum release 0 _) as [tot| |]; cbn [obind]; [|reflexivity|exact I]. destruct (tot <? k); [reflexivity|]. rewrite (K3 0%nat), (place_all_twin release b b' B).
  destruct (place_all release b' _ _) as [[[t m] est]| |]; cbn [obind]; [|reflexivity|exact I].
  pose proof (make_outputs_twin m _ _ B3 0%nat) as Mo. change (Forall2 twin_output (make_outputs b m) (make_outputs b' m)) in Mo. rewrite (estimate_twin b b' _ _ B Mo).
  match goal with |- orel _ (obind ?x _) (obind ?x _) => destruct x as [sz| |]; cbn [obind]; [|reflexivity|exact I] end.
  eapply orel_bind; [apply build_preimages_twin, sig_tx_twin; assumption|]. intros pre pre' Hp. split; [exact B|]. split; [exact Mo|]. split; [exact Hp|]. split; [|reflexivity]. cbn [u_inputs]. eapply Forall2_maps; [exact B2|]. exact presigned_twin.
Qed.
Lemma build_we_twin sha b b' : tb b b' -> orel tu (build_without_estimation sha b) (build_without_estimation sha b').
Proof.
  intros B. pose proof B as (B1 & B2 & B3 & B4 & B5). destruct (known_twin _ _ B3) as (K1 & _). unfold build_without_estimation. eapply orel_bind; [exact K1|]. intros o o' Ho. rewrite (estimate_twin b b' _ _ B Ho).
  destruct (estimate_size b' o') as [sz| |]; cbn [obind]; [|reflexivity|exact I]. eapply orel_bind; [apply build_preimages_twin, sig_tx_twin; assumption|]. intros pre pre' Hp. split; [exact B|]. split; [exact Ho|]. split; [exact Hp|]. split; [|reflexivity]. cbn [u_inputs]. eapply Forall2_maps; [exact B2|]. exact presigned_twin.
Qed.
Lemma upd_twin {A} (R : A -> A -> Prop) l l' i a b : Forall2 R l l' -> R a b -> Forall2 R (upd l i a) (upd l' i b).
Proof. intros H K. revert i. induction H as [|x y l l' Hxy Hl IH]; intros [|i]; cbn [upd]; constructor; auto. Qed.
Lemma signed_twin i i' s s' : tbin i i' -> twin_script s s' -> twin_input (signed_input i s) (signed_input i' s').
Proof. intros ((I1 & I2 & I3) & If & Iflags & Il & Ip & Is) Hs. unfold twin_input, signed_input. cbn [in_prev_out in_script in_sequence in_lock_script in_value in_is_p2sh in_sig_hash_flags]. rewrite I3, Iflags. auto 10. Qed.
Lemma lock_twin i i' : tbin i i' -> twin_script (lock_or_empty i) (lock_or_empty i').
Proof. intros (_ & _ & _ & Il & _). unfold lock_or_empty. destruct (bi_lock_script i), (bi_lock_script i'); cbn [oprel] in Il; try contradiction; [exact Il|constructor]. Qed.
Lemma set_twin u u' i a b : tu u u' -> twin_input a b -> tu (set_input u i a) (set_input u' i b).
Proof. intros (U1 & U2 & U3 & U4 & U5) H. split; [exact U1|]. split; [exact U2|]. split; [exact U3|]. split; [|exact U5]. cbn [set_input u_inputs]. now apply upd_twin. Qed.
Lemma slot_twin {A} (x y : option A) (R : A -> A -> Prop) B (S : B -> B -> Prop) (e : err) (f g : outcome B) : oprel R x y -> orel S f g ->
  orel S (match x with Some _ => Err e | None => f end) (match y with Some _ => Err e | None => g end).
Proof. destruct x, y; cbn; intros; try contradiction; auto. Qed.
Lemma sign_dyn_twin u u' i sg sg' : tu u u' -> tany sg sg' -> orel tu (sign_input_dyn u i sg) (sign_input_dyn u' i sg').
Proof.
  intros U Hs. pose proof U as (U1 & U2 & U3 & U4 & U5). pose proof U1 as (B1 & B2 & B3 & B4 & B5). unfold sign_input_dyn. eapply orel_bind; [apply orel_expect, (Forall2_nth _ _ _ i U4)|]. intros x y Hxy.
  apply (slot_twin _ _ _ _ _ _ _ _ Hxy). eapply orel_bind; [apply orel_expect, (Forall2_nth _ _ _ i B2)|]. intros bi bi' Hb. eapply orel_bind; [apply orel_expect, (Forall2_nth _ _ _ i U3)|]. intros pre pre' Hp.
  rewrite U5. eapply orel_bind; [apply Hb; [exact Hp|exact Hs|now apply lock_twin|exact U2]|]. intros s s' Hss. apply set_twin; [exact U|]. now apply signed_twin.
Qed.
Lemma sign_signatory_twin u u' i ty p p' sh k k' v w : tu u u' -> twin_signatory twin_sig (Signatory ty p sh k) (Signatory ty p' sh k') -> twin_sig ty v w ->
  orel tu (sign_input_signatory u i (Signatory ty p sh k) v) (sign_input_signatory u' i (Signatory ty p' sh k') w).
Proof.
  intros U Hs Hv. pose proof U as (U1 & U2 & U3 & U4 & U5). pose proof U1 as (B1 & B2 & B3 & B4 & B5). unfold sign_input_signatory. eapply orel_bind; [apply orel_expect, (Forall2_nth _ _ _ i U4)|]. intros x y Hxy.
  apply (slot_twin _ _ _ _ _ _ _ _ Hxy). eapply orel_bind; [apply orel_expect, (Forall2_nth _ _ _ i B2)|]. intros bi bi' Hb. eapply orel_bind; [apply orel_expect, (Forall2_nth _ _ _ i U3)|]. intros pre pre' Hp.
  rewrite U5. eapply orel_bind; [apply (signatory_twin_script _ _ Hs eq_refl); [exact Hp|exact Hv|now apply lock_twin|exact U2]|]. intros s s' Hss. apply set_twin; [exact U|]. now apply signed_twin.
Qed.
Lemma complete_twin u u' : tu u u' -> orel twin_tx (complete_tx u) (complete_tx u').
Proof.
  intros (U1 & U2 & U3 & U4 & U5). pose proof U1 as (B1 & B2 & B3 & B4 & B5). unfold complete_tx. eapply orel_bind; [eapply (orel_omap (oprel twin_input) twin_input); [exact U4|intros a b H; now apply orel_expect]|]. intros l l' Hl. split; [exact B1|]. split; [exact Hl|]. split; [exact U2|exact B4].
Qed.
Lemma partial_twin u u' : tu u u' -> twin_tx (partial_tx u) (partial_tx u').
Proof.
  intros (U1 & U2 & U3 & U4 & U5). pose proof U1 as (B1 & B2 & B3 & B4 & B5). split; [exact B1|]. split; [|split; [exact U2|exact B4]]. cbn [partial_tx tx_inputs]. clear -U4 B2. revert U4 B2. generalize (u_inputs u) (u_inputs u') (b_inputs (u_builder u)) (b_inputs (u_builder u')). intros l l' m m' H. revert m m'.
  induction H as [|x y l l' Hxy _ IH]; intros m m' Hm; [constructor|]. destruct Hm as [|i i' m m' Hi Hm]; [constructor|]. cbn [partial_inputs]. constructor; [|auto]. destruct x, y; cbn [oprel] in Hxy; try contradiction; [exact Hxy|]. apply signed_twin; [exact Hi|constructor].
Qed.
End Builder.
