(** C51: expressions off-chain and on-chain. *)
From Verif Require Import Base BaseLemmas Model_Encoding Spec_Encoding Proofs_Encoding Model_Integer Spec_Integer Proofs_Integer Model_ByteArray Proofs_ByteArray Model_Hash Model_Opcode Model_Script Spec_Script Proofs_Script
  Spec_Network Proofs_Network Proofs_Network2 Proofs_Network3 Spec_OffChain Proofs_OffChain.
Local Open Scope list_scope.
Local Open Scope Z_scope.

Scheme iexp_mut := Induction for iexp Sort Prop with bexp_mut := Induction for bexp Sort Prop.
Combined Scheme exp_ind from iexp_mut, bexp_mut.

Lemma num_enc z n : num (enc z) = Some n <-> n = z /\ script_int z.
Proof.
  split.
  - intros H. apply num_some in H. destruct H as (L & M & N). destruct (enc_correct z) as (C & _ & O). rewrite C in N. split; [congruence|].
    destruct (enc z) as [|x r] eqn:E. { cbn in C. subst z. unfold script_int. lia. }
    rewrite <- E in *. destruct (num_mag (enc z) z O C ltac:(rewrite E; discriminate) M) as (_ & _ & A & _).
    assert (2 ^ (8 * zlen (enc z) - 1) <= 2 ^ 31) by (apply Z.pow_le_mono_r; lia). unfold script_int. lia.
  - intros [-> H]. rewrite (enc_int _ H). now apply num_encode.
Qed.
Lemma int_op_res x y f n : int_op x y f = Ok n -> script_int n.
Proof. unfold int_op. intros H. apply obind_ok in H. destruct H as (a & _ & H). apply obind_ok in H. destruct H as (b & _ & H). apply obind_ok in H. destruct H as (r & _ & H). now apply integer_new_inv in H. Qed.
Lemma int_op_args x y f n : int_op x y f = Ok n -> exists a b, x = Ok a /\ y = Ok b /\ int_op (Ok a) (Ok b) f = Ok n.
Proof. unfold int_op. intros H. pose proof H as H0. apply obind_ok in H. destruct H as (a & -> & H). apply obind_ok in H. destruct H as (b & -> & H). eauto. Qed.
Lemma off_i_range E e n : off_i E e = Ok n -> script_int n.
Proof.
  destruct e; cbn [off_i]; try (apply int_op_res); intros H; [now apply integer_new_inv in H| |].
  - unfold int_neg, int_unop in H. apply obind_ok in H. destruct H as (x & _ & H). apply obind_ok in H. destruct H as (y & _ & H). now apply integer_new_inv in H.
  - apply obind_ok in H. destruct H as (x & _ & H). now apply integer_new_inv in H.
Qed.

Lemma off_cat E a b : off_b E (BCat a b) = (do x <- off_b E a; do y <- off_b E b; Ok (ba_concat x y)). Proof. reflexivity. Qed.
Lemma off_left E a k : off_b E (BLeft a k) = (do x <- off_b E a; do (l, r) <- ba_split x k; Ok l). Proof. reflexivity. Qed.
Lemma off_right E a k : off_b E (BRight a k) = (do x <- off_b E a; do (l, r) <- ba_split x k; Ok r). Proof. reflexivity. Qed.
Lemma off_num2bin E i n : off_b E (BNum2Bin i n) = (do x <- off_i E i; do d <- from_int x n; Ok (ba_unnamed d)). Proof. reflexivity. Qed.
Lemma off_hash E h a : off_b E (BHash h a) = (do x <- off_b E a; hash_digest (digest E h) (digest_len h) (digest_func h) x). Proof. reflexivity. Qed.
Lemma off_lit E n : off_i E (ILit n) = integer_new n. Proof. reflexivity. Qed.
Lemma off_neg E a : off_i E (INeg a) = int_neg (off_i E a). Proof. reflexivity. Qed.
Lemma off_len E a : off_i E (ILen a) = (do x <- off_b E a; integer_new (ba_len x)). Proof. reflexivity. Qed.

(** The four binary operators. *)
Record bin_agrees (f : outcome Z -> outcome Z -> outcome Z) (o : opcode) (F : Z -> Z -> option Z) : Prop := BA_ {
  ba_args : forall x y n, f x y = Ok n -> exists a b, x = Ok a /\ y = Ok b /\ f (Ok a) (Ok b) = Ok n;
  ba_main : forall E c s, main_op E c (opcode_u8 o) s = binary (fun x y => option_map enc (F x y)) s;
  ba_off : forall a b n, script_int a -> script_int b -> (f (Ok a) (Ok b) = Ok n <-> F a b = Some n /\ script_int n)
}.
Lemma checked_agrees (g : Z -> Z -> Z) er a b n : script_int a -> script_int b ->
  (int_op (Ok a) (Ok b) (fun a b => checked (g a b) (er a b)) = Ok n <-> Some (g a b) = Some n /\ script_int n).
Proof.
  intros A B. destruct (int_op_checked g er a b A B) as [P Q]. destruct (script_int_dec (g a b)) as [I|I].
  - rewrite (P I). split; intros H; [apply Ok_inj in H; subst n; auto|destruct H as [H _]; injection H as <-; reflexivity].
  - rewrite (Q I). split; [discriminate|]. intros [H J]. injection H as <-. contradiction.
Qed.
Lemma add_agrees : bin_agrees int_add OP_ADD (fun x y => Some (x + y)).
Proof. split; [intros x y n; apply int_op_args|reflexivity|intros; now apply (checked_agrees Z.add EAddOverflow)]. Qed.
Lemma sub_agrees : bin_agrees int_sub OP_SUB (fun x y => Some (x - y)).
Proof. split; [intros x y n; apply int_op_args|reflexivity|intros; now apply (checked_agrees Z.sub ESubOverflow)]. Qed.
Lemma div_agrees : bin_agrees int_div OP_DIV (fun x y => if y =? 0 then None else Some (Z.quot x y)).
Proof.
  split; [intros x y n; apply int_op_args| |].
  - intros E c s. change (main_op E c (opcode_u8 OP_DIV) s) with (binary (fun x y => if y =? 0 then None else Some (enc (Z.quot x y))) s).
    destruct s as [|b [|a r]]; try reflexivity. cbn [binary]. destruct (num a), (num b) as [y|]; try reflexivity. destruct (y =? 0); reflexivity.
  - intros a b n A B. destruct (int_div_ok a b A B) as [P Q]. destruct (Z.eqb_spec b 0) as [->|NZ].
    + rewrite (Q eq_refl). split; [discriminate|intros [H _]; discriminate].
    + rewrite (P NZ). split; intros H; [apply Ok_inj in H; subst n; split; [reflexivity|now apply quot_range]|destruct H as [H _]; injection H as <-; reflexivity].
Qed.
Lemma mod_agrees : bin_agrees int_rem OP_MOD (fun x y => if y =? 0 then None else Some (Z.rem x y)).
Proof.
  split; [intros x y n; apply int_op_args| |].
  - intros E c s. change (main_op E c (opcode_u8 OP_MOD) s) with (binary (fun x y => if y =? 0 then None else Some (enc (Z.rem x y))) s).
    destruct s as [|b [|a r]]; try reflexivity. cbn [binary]. destruct (num a), (num b) as [y|]; try reflexivity. destruct (y =? 0); reflexivity.
  - intros a b n A B. destruct (int_rem_ok a b A B) as [P Q]. destruct (Z.eqb_spec b 0) as [->|NZ].
    + rewrite (Q eq_refl). split; [discriminate|intros [H _]; discriminate].
    + rewrite (P NZ). split; intros H; [apply Ok_inj in H; subst n; split; [reflexivity|now apply rem_range]|destruct H as [H _]; injection H as <-; reflexivity].
Qed.

Definition run (E : env) (c : list Z) (ops : list op) (s : list (list Z)) := flat E c (map instr_of ops) s.
Lemma run_app E c a b s : run E c (a ++ b) s = match run E c a s with Some s' => run E c b s' | None => None end.
Proof. unfold run. rewrite map_app. apply flat_app. Qed.
Lemma run_code E c o r s : run E c (OCode o :: r) s = match main_op E c (opcode_u8 o) s with Some s' => if zlen s' <=? MAX_STACK then run E c r s' else None | None => None end.
Proof. reflexivity. Qed.
Lemma run_code1 E c o s : run E c [OCode o] s = match main_op E c (opcode_u8 o) s with Some s' => if zlen s' <=? MAX_STACK then Some s' else None | None => None end.
Proof. reflexivity. Qed.
Lemma run_nil E c s : run E c [] s = Some s. Proof. reflexivity. Qed.
Lemma run_push E c d r s i : instr_of i = Push d -> run E c (i :: r) s = if MAX_ELEMENT <? zlen d then None else if zlen (d :: s) <=? MAX_STACK then run E c r (d :: s) else None.
Proof. intros H. unfold run. cbn [map flat]. rewrite H. destruct (MAX_ELEMENT <? zlen d); reflexivity. Qed.
Lemma fit_true (s : list (list Z)) : zlen s <= 1000 -> (zlen s <=? MAX_STACK) = true. Proof. intros H. apply Z.leb_le. exact H. Qed.
Lemma encode_short i : script_int i -> (MAX_ELEMENT <? zlen (encode_int i)) = false.
Proof. intros H. destruct (encode_int_correct i ltac:(unfold script_int in H; lia)) as (_ & _ & _ & L). apply Z.ltb_ge. unfold zlen, MAX_ELEMENT. lia. Qed.

Lemma script_i_pos e : 1 <= zlen (script_i e) with script_b_pos e : 1 <= zlen (script_b e).
Proof.
  - destruct e; cbn [script_i]; rewrite ?zlen_app, ?zlen_cons, ?zlen_nil; try lia;
    repeat match goal with |- context [zlen (script_i ?a)] => lazymatch goal with H : 0 <= zlen (script_i a) |- _ => fail | _ => pose proof (zlen_nonneg (script_i a)) end | |- context [zlen (script_b ?a)] => lazymatch goal with H : 0 <= zlen (script_b a) |- _ => fail | _ => pose proof (zlen_nonneg (script_b a)) end end; lia.
  - destruct e; cbn [script_b]; rewrite ?zlen_app, ?zlen_cons, ?zlen_nil; try lia;
    repeat match goal with |- context [zlen (script_i ?a)] => lazymatch goal with H : 0 <= zlen (script_i a) |- _ => fail | _ => pose proof (zlen_nonneg (script_i a)) end | |- context [zlen (script_b ?a)] => lazymatch goal with H : 0 <= zlen (script_b a) |- _ => fail | _ => pose proof (zlen_nonneg (script_b a)) end end; lia.
Qed.

Section Agree.
Variables (E : env) (c : list Z).
Hypothesis HD : digests_ok E.

Definition fwd_i (e : iexp) : Prop := lits_i e -> forall n s, off_i E e = Ok n -> fits_i E e -> zlen s + zlen (script_i e) <= 1000 -> run E c (script_i e) s = Some (encode_int n :: s).
Definition fwd_b (e : bexp) : Prop := lits_b e -> forall a s, off_b E e = Ok a -> fits_b E e ->
  zlen (ba_data a) <= 520 /\ (zlen s + zlen (script_b e) <= 1000 -> run E c (script_b e) s = Some (ba_data a :: s)).

Lemma fwd_bin f o F a b n s : bin_agrees f o F -> fwd_i a -> fwd_i b -> lits_i a /\ lits_i b -> f (off_i E a) (off_i E b) = Ok n -> fits_i E a /\ fits_i E b ->
  zlen s + zlen (script_i a ++ script_i b ++ [OCode o]) <= 1000 -> run E c (script_i a ++ script_i b ++ [OCode o]) s = Some (encode_int n :: s).
Proof.
  intros G HA HB (La & Lb) H (Fa & Fb) L. rewrite !zlen_app, zlen_cons, zlen_nil in L. destruct (ba_args _ _ _ G _ _ _ H) as (x & y & X & Y & R).
  pose proof (script_i_pos a). pose proof (script_i_pos b). rewrite run_app, (HA La _ _ X Fa), run_app, (HB Lb _ _ Y Fb), run_code1, (ba_main _ _ _ G) by (rewrite ?zlen_cons; lia).
  cbn [binary]. pose proof (off_i_range _ _ _ X) as RX. pose proof (off_i_range _ _ _ Y) as RY. rewrite (num_encode _ RX), (num_encode _ RY). apply (ba_off _ _ _ G x y n RX RY) in R. destruct R as [-> RN]. cbn [option_map].
  rewrite fit_true by (rewrite zlen_cons; lia). now rewrite (enc_int _ RN).
Qed.
Lemma fwd : (forall e, fwd_i e) /\ (forall e, fwd_b e).
Proof.
  apply exp_ind; unfold fwd_i, fwd_b; cbn [lits_i lits_b fits_i fits_b].
  - (* ILit *) intros n H m s R _ L. cbn [off_i script_i] in *. rewrite (integer_new_ok _ H) in R. apply Ok_inj in R. subst m. rewrite zlen_cons, zlen_nil in L.
    rewrite (run_push _ _ (encode_int n)) by reflexivity. rewrite (encode_short _ H), fit_true by (rewrite zlen_cons; lia). reflexivity.
  - intros a HA b HB H n s R F L. exact (fwd_bin _ _ _ a b n s add_agrees HA HB H R F L).
  - intros a HA b HB H n s R F L. exact (fwd_bin _ _ _ a b n s sub_agrees HA HB H R F L).
  - intros a HA b HB H n s R F L. exact (fwd_bin _ _ _ a b n s div_agrees HA HB H R F L).
  - intros a HA b HB H n s R F L. exact (fwd_bin _ _ _ a b n s mod_agrees HA HB H R F L).
  - (* INeg *) intros a HA H n s R F L. cbn [off_i script_i] in *. rewrite zlen_app, zlen_cons, zlen_nil in L. unfold int_neg, int_unop in R. pose proof R as R0. apply obind_ok in R. destruct R as (x & X & _). pose proof (off_i_range _ _ _ X) as RX. rewrite X in R0. fold (int_neg (Ok x)) in R0. pose proof (int_neg_ok x RX) as N. unfold int_neg, int_unop in N. rewrite N in R0. apply Ok_inj in R0. subst n.
    pose proof (script_i_pos a). rewrite run_app, (HA H _ _ X F) by lia. rewrite run_code1. change (main_op E c (opcode_u8 OP_NEGATE) (encode_int x :: s)) with (nums Z.opp (encode_int x :: s)). unfold nums, unary. rewrite (num_encode _ RX). cbn [option_map].
    rewrite fit_true by (rewrite zlen_cons; lia). rewrite enc_int; [reflexivity|]. unfold script_int in *. lia.
  - (* ILen *) intros a HA H n s R F L. cbn [off_i script_i] in *. rewrite zlen_app, !zlen_cons, zlen_nil in L. apply obind_ok in R. destruct R as (x & X & R). destruct (HA H x s X F) as [S HR]. pose proof (script_b_pos a). apply integer_new_inv in R. destruct R as [R I].
    rewrite run_app, HR by lia. rewrite run_code. change (main_op E c (opcode_u8 OP_SIZE) (ba_data x :: s)) with (Some (enc (zlen (ba_data x)) :: ba_data x :: s)). cbv beta iota. rewrite fit_true by (rewrite !zlen_cons; lia). rewrite run_code. cbn [opcode_u8 main_op].
    rewrite fit_true by (rewrite zlen_cons; lia). rewrite run_nil. unfold ba_len in R. rewrite R, (enc_int _ I). reflexivity.
  - (* BLit *) intros a (O & L32) x s R F. cbn [off_b script_b] in *. apply Ok_inj in R. subst x. split; [exact F|]. intros L. rewrite zlen_cons, zlen_nil in L. rewrite (run_push _ _ (ba_data a)) by reflexivity.
    assert ((MAX_ELEMENT <? zlen (ba_data a)) = false) as -> by (apply Z.ltb_ge; exact F). cbv beta iota. rewrite fit_true by (rewrite zlen_cons; lia). reflexivity.
  - (* BCat *) intros a HA b HB (La & Lb) x s R (Fa & Fb & F). split; [now apply F|]. apply F in R as FX. cbn [off_b script_b] in *. intros L. rewrite !zlen_app, zlen_cons, zlen_nil in L. apply obind_ok in R. destruct R as (v & V & R). apply obind_ok in R. destruct R as (w & W & R). apply Ok_inj in R. subst x. rewrite concat_data in *.
    pose proof (script_b_pos a). pose proof (script_b_pos b). destruct (HA La v s V Fa) as [_ HR]. destruct (HB Lb w (ba_data v :: s) W Fb) as [_ HS]. rewrite run_app, HR, run_app, HS by (rewrite ?zlen_cons; lia). rewrite run_code1.
    change (main_op E c (opcode_u8 OP_CAT) (ba_data w :: ba_data v :: s)) with (if zlen (ba_data v) + zlen (ba_data w) <=? MAX_ELEMENT then Some ((ba_data v ++ ba_data w) :: s) else None). rewrite zlen_app in FX.
    assert ((zlen (ba_data v) + zlen (ba_data w) <=? MAX_ELEMENT) = true) as -> by (apply Z.leb_le; exact FX). cbv beta iota. rewrite fit_true by (rewrite zlen_cons; lia). reflexivity.
  - (* BLeft *) intros a HA k (La & Hk) x s R F. cbn [off_b script_b] in *. apply obind_ok in R. destruct R as (v & V & R). destruct (HA La v s V F) as [SZ HR]. apply obind_ok in R. destruct R as ([l r] & SP & R). apply Ok_inj in R. subst x.
    destruct (split_ok_iff v k ltac:(lia)) as [P Q]. destruct (Z.le_gt_cases k (zlen (ba_data v))) as [K|K]; [|rewrite (Q K) in SP; discriminate]. destruct (P K) as (l' & r' & SP' & DL & DR). rewrite SP in SP'. apply Ok_inj in SP'. injection SP' as <- <-. rewrite DL.
    split; [unfold zlen in *; rewrite firstn_length; lia|]. intros L. rewrite zlen_app, !zlen_cons, zlen_nil in L. pose proof (script_b_pos a). rewrite run_app, HR by lia. assert (script_int k) as IK by (unfold script_int; lia). rewrite (run_push _ _ (encode_int k)) by reflexivity. rewrite (encode_short _ IK), fit_true by (rewrite !zlen_cons; lia).
    rewrite run_code. change (main_op E c (opcode_u8 OP_SPLIT) (encode_int k :: ba_data v :: s)) with (match num (encode_int k) with Some k => if (0 <=? k) && (k <=? zlen (ba_data v)) then Some (skipn (Z.to_nat k) (ba_data v) :: firstn (Z.to_nat k) (ba_data v) :: s) else None | None => None end).
    rewrite (num_encode _ IK). assert ((0 <=? k) && (k <=? zlen (ba_data v)) = true) as -> by lia. cbv beta iota. rewrite fit_true by (rewrite !zlen_cons; lia). rewrite run_code. cbn [opcode_u8 main_op]. cbv beta iota. rewrite fit_true by (rewrite !zlen_cons; lia). reflexivity.
  - (* BRight *) intros a HA k (La & Hk) x s R F. cbn [off_b script_b] in *. apply obind_ok in R. destruct R as (v & V & R). destruct (HA La v s V F) as [SZ HR]. apply obind_ok in R. destruct R as ([l r] & SP & R). apply Ok_inj in R. subst x.
    destruct (split_ok_iff v k ltac:(lia)) as [P Q]. destruct (Z.le_gt_cases k (zlen (ba_data v))) as [K|K]; [|rewrite (Q K) in SP; discriminate]. destruct (P K) as (l' & r' & SP' & DL & DR). rewrite SP in SP'. apply Ok_inj in SP'. injection SP' as <- <-. rewrite DR.
    split; [unfold zlen in *; rewrite skipn_length; lia|]. intros L. rewrite zlen_app, !zlen_cons, zlen_nil in L. pose proof (script_b_pos a). rewrite run_app, HR by lia. assert (script_int k) as IK by (unfold script_int; lia). rewrite (run_push _ _ (encode_int k)) by reflexivity. rewrite (encode_short _ IK), fit_true by (rewrite !zlen_cons; lia).
    rewrite run_code. change (main_op E c (opcode_u8 OP_SPLIT) (encode_int k :: ba_data v :: s)) with (match num (encode_int k) with Some k => if (0 <=? k) && (k <=? zlen (ba_data v)) then Some (skipn (Z.to_nat k) (ba_data v) :: firstn (Z.to_nat k) (ba_data v) :: s) else None | None => None end).
    rewrite (num_encode _ IK). assert ((0 <=? k) && (k <=? zlen (ba_data v)) = true) as -> by lia. cbv beta iota. rewrite fit_true by (rewrite !zlen_cons; lia). rewrite run_code. cbn [opcode_u8 main_op]. cbv beta iota. rewrite fit_true by (rewrite !zlen_cons; lia). reflexivity.
  - (* BNum2Bin *) intros i HI n (Li & Hn) x s R (Fi & Fn). cbn [off_b script_b] in *. apply obind_ok in R. destruct R as (v & V & R). apply obind_ok in R. destruct R as (d & D & R). apply Ok_inj in R. subst x. cbn [ba_unnamed ba_data]. pose proof (off_i_range _ _ _ V) as RV.
    apply (from_int_num2bin v n d RV) in D; [|unfold MAX_ELEMENT; lia]. destruct D as [DL ->]. split; [destruct (num2bin_sign_mag v n RV ltac:(lia) DL) as (_ & -> & _); exact Fn|].
    intros L. rewrite zlen_app, !zlen_cons, zlen_nil in L. pose proof (script_i_pos i). rewrite run_app, (HI Li v s V Fi) by lia. assert (script_int n) as IN by (unfold script_int; lia). rewrite (run_push _ _ (encode_int n)) by reflexivity. rewrite (encode_short _ IN), fit_true by (rewrite !zlen_cons; lia). rewrite run_code1.
    destruct (encode_int_correct v ltac:(unfold script_int in RV; lia)) as (NV & MV & OV & _).
    change (main_op E c (opcode_u8 OP_NUM2BIN) (encode_int n :: encode_int v :: s)) with (match num (encode_int n) with Some k => let m := enc (script_num (encode_int v)) in if (0 <=? k) && (k <=? MAX_ELEMENT) && (zlen m <=? k) then Some (num2bin m k :: s) else None | None => None end).
    rewrite (num_encode _ IN). cbv zeta. rewrite (enc_unique _ OV MV). assert ((0 <=? n) && (n <=? MAX_ELEMENT) && (zlen (encode_int v) <=? n) = true) as -> by (unfold MAX_ELEMENT; lia). cbv beta iota. rewrite fit_true by (rewrite !zlen_cons; lia). reflexivity.
  - (* BHash *) intros h a HA La x s R F. cbn [off_b script_b] in *. apply obind_ok in R. destruct R as (v & V & R). destruct (HA La v s V F) as [_ HR]. unfold hash_digest, fixed_from_byte_array, ba_apply_function, ba_len in R. cbn [ba_data] in R. rewrite (HD h (ba_data v)), Z.eqb_refl in R. apply Ok_inj in R. subst x. cbn [ba_data].
    split; [rewrite (HD h (ba_data v)); destruct h; cbn; lia|]. intros L. rewrite zlen_app, !zlen_cons, zlen_nil in L. pose proof (script_b_pos a). rewrite run_app, HR by lia. rewrite run_code1.
    assert (main_op E c (opcode_u8 match h with HSha1 => OP_SHA1 | HRipemd160 => OP_RIPEMD160 | HSha256 => OP_SHA256 | HHash160 => OP_HASH160 | HHash256 => OP_HASH256 end) (ba_data v :: s) = Some (digest E h (ba_data v) :: s)) as -> by (destruct h; reflexivity).
    rewrite fit_true by (rewrite !zlen_cons; lia). reflexivity.
Qed.

(** *** From the chain back *)
Definition bwd_i (e : iexp) : Prop := lits_i e -> guarded_i e -> forall s s', run E c (script_i e) s = Some s' ->
  exists v, s' = v :: s /\ fits_i E e /\ (forall n, num v = Some n -> off_i E e = Ok n) /\ (match e with IAdd _ _ | ISub _ _ => True | _ => exists n, script_int n /\ v = encode_int n end).
Definition bwd_b (e : bexp) : Prop := lits_b e -> guarded_b e -> forall s s', run E c (script_b e) s = Some s' ->
  exists a, s' = ba_data a :: s /\ off_b E e = Ok a /\ fits_b E e /\ zlen (ba_data a) <= 520.

Lemma bwd_bin f o F a b s s' : bin_agrees f o F -> bwd_i a -> bwd_i b -> lits_i a /\ lits_i b -> guarded_i a /\ guarded_i b ->
  run E c (script_i a ++ script_i b ++ [OCode o]) s = Some s' ->
  exists x y z, s' = enc z :: s /\ script_int x /\ script_int y /\ F x y = Some z /\ (fits_i E a /\ fits_i E b) /\ (forall n, num (enc z) = Some n -> f (off_i E a) (off_i E b) = Ok n).
Proof.
  intros G HA HB (La & Lb) (Ga & Gb) R. rewrite run_app in R. destruct (run E c (script_i a) s) as [s1|] eqn:R1; [|discriminate]. destruct (HA La Ga _ _ R1) as (v & -> & Fa & OA & _).
  rewrite run_app in R. destruct (run E c (script_i b) (v :: s)) as [s2|] eqn:R2; [|discriminate]. destruct (HB Lb Gb _ _ R2) as (w & -> & Fb & OB & _).
  rewrite run_code1, (ba_main _ _ _ G) in R. cbn [binary] in R. destruct (num v) as [x|] eqn:X; [|discriminate]. destruct (num w) as [y|] eqn:Y; [|discriminate]. destruct (F x y) as [z|] eqn:FZ; [|discriminate]. cbn [option_map] in R.
  destruct (zlen (enc z :: s) <=? MAX_STACK); [|discriminate]. injection R as <-. pose proof (OA x eq_refl) as EA. pose proof (OB y eq_refl) as EB. pose proof (off_i_range _ _ _ EA) as IX. pose proof (off_i_range _ _ _ EB) as IY. exists x, y, z. split; [reflexivity|]. split; [exact IX|]. split; [exact IY|]. split; [exact FZ|]. split; [auto|].
  intros n N. apply num_enc in N. destruct N as [-> IZ]. rewrite EA, EB. apply (ba_off _ _ _ G x y z IX IY). auto.
Qed.
Lemma bwd : (forall e, bwd_i e) /\ (forall e, bwd_b e).
Proof.
  apply exp_ind; unfold bwd_i, bwd_b; cbn [lits_i lits_b guarded_i guarded_b fits_i fits_b].
  - intros n H _ s s' R. cbn [script_i] in R. rewrite (run_push _ _ (encode_int n)) in R by reflexivity. rewrite (encode_short _ H) in R. cbv beta iota in R. destruct (_ <=? MAX_STACK); [|discriminate]. rewrite run_nil in R. injection R as <-. exists (encode_int n). split; [reflexivity|]. split; [exact I|]. split; [|eauto].
    intros m M. rewrite (num_encode _ H) in M. injection M as <-. rewrite ?off_cat, ?off_left, ?off_right, ?off_num2bin, ?off_hash, ?off_lit, ?off_neg, ?off_len. now apply integer_new_ok.
  - intros a HA b HB L G s s' R. destruct (bwd_bin _ _ _ a b s s' add_agrees HA HB L G R) as (x & y & z & -> & _ & _ & _ & FF & O). exists (enc z). auto.
  - intros a HA b HB L G s s' R. destruct (bwd_bin _ _ _ a b s s' sub_agrees HA HB L G R) as (x & y & z & -> & _ & _ & _ & FF & O). exists (enc z). auto.
  - intros a HA b HB L G s s' R. destruct (bwd_bin _ _ _ a b s s' div_agrees HA HB L G R) as (x & y & z & -> & IX & IY & FZ & FF & O). exists (enc z). split; [reflexivity|]. split; [exact FF|]. split; [exact O|].
    destruct (Z.eqb_spec y 0); [discriminate|]. injection FZ as <-. exists (Z.quot x y). pose proof (quot_range x y IX IY ltac:(assumption)) as Q. split; [exact Q|now apply enc_int].
  - intros a HA b HB L G s s' R. destruct (bwd_bin _ _ _ a b s s' mod_agrees HA HB L G R) as (x & y & z & -> & IX & IY & FZ & FF & O). exists (enc z). split; [reflexivity|]. split; [exact FF|]. split; [exact O|].
    destruct (Z.eqb_spec y 0); [discriminate|]. injection FZ as <-. exists (Z.rem x y). pose proof (rem_range x y IX IY ltac:(assumption)) as Q. split; [exact Q|now apply enc_int].
  - intros a HA L G s s' R. cbn [script_i] in R. rewrite run_app in R. destruct (run E c (script_i a) s) as [s1|] eqn:R1; [|discriminate]. destruct (HA L G _ _ R1) as (v & -> & Fa & OA & _). rewrite run_code1 in R.
    change (main_op E c (opcode_u8 OP_NEGATE) (v :: s)) with (nums Z.opp (v :: s)) in R. unfold nums, unary in R. destruct (num v) as [x|] eqn:X; [|discriminate]. cbn [option_map] in R. cbv beta iota in R. destruct (_ <=? MAX_STACK); [|discriminate]. injection R as <-. exists (enc (- x)).
    pose proof (OA x eq_refl) as EA. pose proof (off_i_range _ _ _ EA) as IX. split; [reflexivity|]. split; [exact Fa|]. split.
    + intros n N. apply num_enc in N. destruct N as [-> _]. rewrite ?off_cat, ?off_left, ?off_right, ?off_num2bin, ?off_hash, ?off_lit, ?off_neg, ?off_len. rewrite EA. now apply int_neg_ok.
    + exists (- x). assert (script_int (- x)) as J by (unfold script_int in *; lia). split; [exact J|now apply enc_int].
  - intros a HA L G s s' R. cbn [script_i] in R. rewrite run_app in R. destruct (run E c (script_b a) s) as [s1|] eqn:R1; [|discriminate]. destruct (HA L G _ _ R1) as (x & -> & OA & Fa & SZ). rewrite run_code in R.
    change (main_op E c (opcode_u8 OP_SIZE) (ba_data x :: s)) with (Some (enc (zlen (ba_data x)) :: ba_data x :: s)) in R. cbv beta iota in R. destruct (_ <=? MAX_STACK) in R; [|discriminate]. rewrite run_code in R. cbn [opcode_u8 main_op] in R. cbv beta iota in R. destruct (_ <=? MAX_STACK) in R; [|discriminate]. rewrite run_nil in R. injection R as <-.
    assert (script_int (zlen (ba_data x))) as IZ by (unfold script_int; pose proof (zlen_nonneg (ba_data x)); change (2 ^ 31) with 2147483648; lia). exists (enc (zlen (ba_data x))). split; [reflexivity|]. split; [exact Fa|]. split.
    + intros n N. apply num_enc in N. destruct N as [-> _]. rewrite ?off_cat, ?off_left, ?off_right, ?off_num2bin, ?off_hash, ?off_lit, ?off_neg, ?off_len. rewrite OA. cbn [obind]. now apply integer_new_ok.
    + eexists. split; [exact IZ|now apply enc_int].
  - intros a (O & L32) _ s s' R. cbn [script_b] in R. rewrite (run_push _ _ (ba_data a)) in R by reflexivity. destruct (Z.ltb_spec MAX_ELEMENT (zlen (ba_data a))) as [|K]; [discriminate|]. cbv beta iota in R. destruct (_ <=? MAX_STACK); [|discriminate]. rewrite run_nil in R. injection R as <-. exists a. unfold MAX_ELEMENT in K. auto.
  - intros a HA b HB (La & Lb) (Ga & Gb) s s' R. cbn [script_b] in R. rewrite run_app in R. destruct (run E c (script_b a) s) as [s1|] eqn:R1; [|discriminate]. destruct (HA La Ga _ _ R1) as (v & -> & OA & Fa & _).
    rewrite run_app in R. destruct (run E c (script_b b) (ba_data v :: s)) as [s2|] eqn:R2; [|discriminate]. destruct (HB Lb Gb _ _ R2) as (w & -> & OB & Fb & _). rewrite run_code1 in R.
    change (main_op E c (opcode_u8 OP_CAT) (ba_data w :: ba_data v :: s)) with (if zlen (ba_data v) + zlen (ba_data w) <=? MAX_ELEMENT then Some ((ba_data v ++ ba_data w) :: s) else None) in R.
    destruct (Z.leb_spec (zlen (ba_data v) + zlen (ba_data w)) MAX_ELEMENT) as [K|]; [|discriminate]. cbv beta iota in R. destruct (_ <=? MAX_STACK); [|discriminate]. injection R as <-. unfold MAX_ELEMENT in K.
    assert (off_b E (BCat a b) = Ok (ba_concat v w)) as OC by (rewrite ?off_cat, ?off_left, ?off_right, ?off_num2bin, ?off_hash, ?off_lit, ?off_neg, ?off_len; rewrite OA, OB; reflexivity). exists (ba_concat v w). rewrite concat_data. split; [reflexivity|]. split; [exact OC|]. split; [|rewrite zlen_app; lia]. split; [exact Fa|]. split; [exact Fb|]. intros x X. rewrite OC in X. apply Ok_inj in X. subst x. rewrite concat_data, zlen_app. lia.
  - intros a HA k (La & Hk) Ga s s' R. cbn [script_b] in R. rewrite run_app in R. destruct (run E c (script_b a) s) as [s1|] eqn:R1; [|discriminate]. destruct (HA La Ga _ _ R1) as (v & -> & OA & Fa & SZ). assert (script_int k) as IK by (unfold script_int; lia).
    rewrite (run_push _ _ (encode_int k)) in R by reflexivity. rewrite (encode_short _ IK) in R. cbv beta iota in R. destruct (_ <=? MAX_STACK) in R; [|discriminate]. rewrite run_code in R.
    change (main_op E c (opcode_u8 OP_SPLIT) (encode_int k :: ba_data v :: s)) with (match num (encode_int k) with Some k => if (0 <=? k) && (k <=? zlen (ba_data v)) then Some (skipn (Z.to_nat k) (ba_data v) :: firstn (Z.to_nat k) (ba_data v) :: s) else None | None => None end) in R.
    rewrite (num_encode _ IK) in R. destruct ((0 <=? k) && (k <=? zlen (ba_data v))) eqn:K; [|discriminate]. cbv beta iota in R. destruct (_ <=? MAX_STACK) in R; [|discriminate]. rewrite run_code in R. cbn [opcode_u8 main_op] in R. cbv beta iota in R. destruct (_ <=? MAX_STACK) in R; [|discriminate]. rewrite run_nil in R. injection R as <-.
    destruct (split_ok_iff v k ltac:(lia)) as [P _]. assert (k <= zlen (ba_data v)) as K' by (apply andb_prop in K; destruct K as [_ K]; now apply Z.leb_le in K). destruct (P K') as (l & r & SP & DL & DR). exists l. rewrite DL. split; [reflexivity|]. split; [rewrite ?off_cat, ?off_left, ?off_right, ?off_num2bin, ?off_hash, ?off_lit, ?off_neg, ?off_len; rewrite OA; cbn [obind]; rewrite SP; reflexivity|]. split; [exact Fa|]. unfold zlen in *. rewrite firstn_length. lia.
  - intros a HA k (La & Hk) Ga s s' R. cbn [script_b] in R. rewrite run_app in R. destruct (run E c (script_b a) s) as [s1|] eqn:R1; [|discriminate]. destruct (HA La Ga _ _ R1) as (v & -> & OA & Fa & SZ). assert (script_int k) as IK by (unfold script_int; lia).
    rewrite (run_push _ _ (encode_int k)) in R by reflexivity. rewrite (encode_short _ IK) in R. cbv beta iota in R. destruct (_ <=? MAX_STACK) in R; [|discriminate]. rewrite run_code in R.
    change (main_op E c (opcode_u8 OP_SPLIT) (encode_int k :: ba_data v :: s)) with (match num (encode_int k) with Some k => if (0 <=? k) && (k <=? zlen (ba_data v)) then Some (skipn (Z.to_nat k) (ba_data v) :: firstn (Z.to_nat k) (ba_data v) :: s) else None | None => None end) in R.
    rewrite (num_encode _ IK) in R. destruct ((0 <=? k) && (k <=? zlen (ba_data v))) eqn:K; [|discriminate]. cbv beta iota in R. destruct (_ <=? MAX_STACK) in R; [|discriminate]. rewrite run_code in R. cbn [opcode_u8 main_op] in R. cbv beta iota in R. destruct (_ <=? MAX_STACK) in R; [|discriminate]. rewrite run_nil in R. injection R as <-.
    destruct (split_ok_iff v k ltac:(lia)) as [P _]. assert (k <= zlen (ba_data v)) as K' by (apply andb_prop in K; destruct K as [_ K]; now apply Z.leb_le in K). destruct (P K') as (l & r & SP & DL & DR). exists r. rewrite DR. split; [reflexivity|]. split; [rewrite ?off_cat, ?off_left, ?off_right, ?off_num2bin, ?off_hash, ?off_lit, ?off_neg, ?off_len; rewrite OA; cbn [obind]; rewrite SP; reflexivity|]. split; [exact Fa|]. unfold zlen in *. rewrite skipn_length. lia.
  - intros i HI n (Li & Hn) (Gi & GG) s s' R. cbn [script_b] in R. rewrite run_app in R. destruct (run E c (script_i i) s) as [s1|] eqn:R1; [|discriminate]. destruct (HI Li Gi _ _ R1) as (v & -> & Fi & OI & X). assert (exists x, script_int x /\ v = encode_int x) as (x & IX & ->) by (destruct i; try contradiction; exact X). clear X.
    assert (script_int n) as IN by (unfold script_int; lia). rewrite (run_push _ _ (encode_int n)) in R by reflexivity. rewrite (encode_short _ IN) in R. cbv beta iota in R. destruct (_ <=? MAX_STACK) in R; [|discriminate]. rewrite run_code in R. destruct (encode_int_correct x ltac:(unfold script_int in IX; lia)) as (NV & MV & OV & _).
    change (main_op E c (opcode_u8 OP_NUM2BIN) (encode_int n :: encode_int x :: s)) with (match num (encode_int n) with Some k => let m := enc (script_num (encode_int x)) in if (0 <=? k) && (k <=? MAX_ELEMENT) && (zlen m <=? k) then Some (num2bin m k :: s) else None | None => None end) in R.
    rewrite (num_encode _ IN) in R. cbv zeta in R. rewrite (enc_unique _ OV MV) in R. destruct ((0 <=? n) && (n <=? MAX_ELEMENT) && (zlen (encode_int x) <=? n)) eqn:K; [|discriminate]. cbv beta iota in R. destruct (_ <=? MAX_STACK) in R; [|discriminate]. rewrite run_nil in R. injection R as <-. unfold MAX_ELEMENT in K.
    exists (ba_unnamed (num2bin (encode_int x) n)). split; [reflexivity|]. split; [|split; [split; [exact Fi|lia]|]].
    + rewrite ?off_cat, ?off_left, ?off_right, ?off_num2bin, ?off_hash, ?off_lit, ?off_neg, ?off_len. rewrite (OI x (num_encode _ IX)). cbn [obind]. assert (from_int x n = Ok (num2bin (encode_int x) n)) as -> by (apply from_int_num2bin; [exact IX|unfold MAX_ELEMENT; lia|split; [lia|reflexivity]]). reflexivity.
    + cbn [ba_unnamed ba_data]. destruct (num2bin_sign_mag x n IX ltac:(lia) ltac:(lia)) as (_ & -> & _). lia.
  - intros h a HA La Ga s s' R. cbn [script_b] in R. rewrite run_app in R. destruct (run E c (script_b a) s) as [s1|] eqn:R1; [|discriminate]. destruct (HA La Ga _ _ R1) as (v & -> & OA & Fa & _). rewrite run_code1 in R.
    assert (main_op E c (opcode_u8 match h with HSha1 => OP_SHA1 | HRipemd160 => OP_RIPEMD160 | HSha256 => OP_SHA256 | HHash160 => OP_HASH160 | HHash256 => OP_HASH256 end) (ba_data v :: s) = Some (digest E h (ba_data v) :: s)) as H by (destruct h; reflexivity). rewrite H in R. cbv beta iota in R. destruct (_ <=? MAX_STACK); [|discriminate]. injection R as <-.
    exists (BA (digest E h (ba_data v)) None (digest_func h) (Some [v])). cbn [ba_data]. split; [reflexivity|]. split; [|split; [exact Fa|rewrite (HD h (ba_data v)); destruct h; cbn; lia]].
    rewrite ?off_cat, ?off_left, ?off_right, ?off_num2bin, ?off_hash, ?off_lit, ?off_neg, ?off_len. rewrite OA. cbn [obind]. unfold hash_digest, fixed_from_byte_array, ba_apply_function, ba_len. cbn [ba_data]. now rewrite (HD h (ba_data v)), Z.eqb_refl.
Qed.

(** *** Conditions *)
Lemma rel_main r x y s : script_int x -> script_int y ->
  main_op E c (opcode_u8 match r with REq => OP_NUMEQUAL | RNe => OP_NUMNOTEQUAL | RLt => OP_LESSTHAN | RGt => OP_GREATERTHAN | RLe => OP_LESSTHANOREQUAL | RGe => OP_GREATERTHANOREQUAL end) (encode_int y :: encode_int x :: s) =
  Some (bool_item (off_rel r (Ok x) (Ok y)) :: s).
Proof.
  intros X Y. assert (forall g, test2 g (encode_int y :: encode_int x :: s) = Some (bool_item (g x y) :: s)) as T by (intros g; unfold test2, binary; now rewrite (num_encode _ X), (num_encode _ Y)).
  destruct r; cbn [off_rel ires_eq ires_cmp].
  - exact (T Z.eqb).
  - exact (T (fun x y => negb (x =? y))).
  - etransitivity; [exact (T Z.ltb)|]. unfold Z.ltb. destruct (x ?= y); reflexivity.
  - etransitivity; [exact (T Z.gtb)|]. unfold Z.gtb. destruct (x ?= y); reflexivity.
  - etransitivity; [exact (T Z.leb)|]. unfold Z.leb. destruct (x ?= y); reflexivity.
  - etransitivity; [exact (T Z.geb)|]. unfold Z.geb. destruct (x ?= y); reflexivity.
Qed.
Lemma rel_main_inv r v w s s' : main_op E c (opcode_u8 match r with REq => OP_NUMEQUAL | RNe => OP_NUMNOTEQUAL | RLt => OP_LESSTHAN | RGt => OP_GREATERTHAN | RLe => OP_LESSTHANOREQUAL | RGe => OP_GREATERTHANOREQUAL end) (w :: v :: s) = Some s' ->
  exists x y, num v = Some x /\ num w = Some y /\ s' = bool_item (off_rel r (Ok x) (Ok y)) :: s.
Proof.
  assert (forall g, test2 g (w :: v :: s) = Some s' -> exists x y, num v = Some x /\ num w = Some y /\ s' = bool_item (g x y) :: s) as T.
  { intros g. unfold test2, binary. destruct (num v) as [x|]; [|discriminate]. destruct (num w) as [y|]; [|discriminate]. cbn [option_map]. intros H. injection H as <-. eauto. }
  destruct r; cbn [off_rel ires_eq ires_cmp]; intros H.
  - exact (T Z.eqb H).
  - exact (T (fun x y => negb (x =? y)) H).
  - destruct (T Z.ltb H) as (x & y & X & Y & ->). exists x, y. split; [exact X|]. split; [exact Y|]. unfold Z.ltb. destruct (x ?= y); reflexivity.
  - destruct (T Z.gtb H) as (x & y & X & Y & ->). exists x, y. split; [exact X|]. split; [exact Y|]. unfold Z.gtb. destruct (x ?= y); reflexivity.
  - destruct (T Z.leb H) as (x & y & X & Y & ->). exists x, y. split; [exact X|]. split; [exact Y|]. unfold Z.leb. destruct (x ?= y); reflexivity.
  - destruct (T Z.geb H) as (x & y & X & Y & ->). exists x, y. split; [exact X|]. split; [exact Y|]. unfold Z.geb. destruct (x ?= y); reflexivity.
Qed.
Lemma same_eqb a b : same (ba_data a) (ba_data b) = ba_eqb a b.
Proof. apply eq_true_iff_eq. rewrite same_iff, ba_eqb_spec. reflexivity. Qed.
Lemma fwd_c co v s : lits_c co -> off_c E co = Ok v -> fits_c E co -> zlen s + zlen (script_c co) <= 1000 -> run E c (script_c co) s = Some (bool_item v :: s).
Proof.
  destruct fwd as [FI FB]. destruct co as [a b|r a b]; cbn [lits_c off_c fits_c script_c]; intros (La & Lb) O (Fa & Fb) L; rewrite !zlen_app, zlen_cons, zlen_nil in L; apply obind_ok in O; destruct O as (x & X & O); apply obind_ok in O; destruct O as (y & Y & O); apply Ok_inj in O; subst v.
  - destruct (FB a La x s X Fa) as [_ RA]. destruct (FB b Lb y (ba_data x :: s) Y Fb) as [_ RB]. pose proof (script_b_pos a). pose proof (script_b_pos b). rewrite run_app, RA, run_app, RB by (rewrite ?zlen_cons; lia). rewrite run_code1.
    change (main_op E c (opcode_u8 OP_EQUAL) (ba_data y :: ba_data x :: s)) with (Some (bool_item (same (ba_data x) (ba_data y)) :: s)). cbv beta iota. rewrite fit_true by (rewrite zlen_cons; lia). rewrite same_eqb. reflexivity.
  - pose proof (script_i_pos a). pose proof (script_i_pos b). rewrite run_app, (FI a La x s X Fa), run_app, (FI b Lb y _ Y Fb) by (rewrite ?zlen_cons; lia). rewrite run_code1. rewrite rel_main by (eapply off_i_range; eassumption). cbv beta iota. rewrite fit_true by (rewrite zlen_cons; lia). reflexivity.
Qed.
Lemma bwd_c co s s' : lits_c co -> guarded_c co -> run E c (script_c co) s = Some s' -> exists v, s' = bool_item v :: s /\ off_c E co = Ok v /\ fits_c E co.
Proof.
  destruct bwd as [FI FB]. destruct co as [a b|r a b]; cbn [lits_c off_c fits_c guarded_c script_c]; intros (La & Lb) (Ga & Gb) R; rewrite run_app in R.
  - destruct (run E c (script_b a) s) as [s1|] eqn:R1; [|discriminate]. destruct (FB a La Ga _ _ R1) as (x & -> & X & Fa & _). rewrite run_app in R. destruct (run E c (script_b b) (ba_data x :: s)) as [s2|] eqn:R2; [|discriminate]. destruct (FB b Lb Gb _ _ R2) as (y & -> & Y & Fb & _). rewrite run_code1 in R.
    change (main_op E c (opcode_u8 OP_EQUAL) (ba_data y :: ba_data x :: s)) with (Some (bool_item (same (ba_data x) (ba_data y)) :: s)) in R. cbv beta iota in R. destruct (_ <=? MAX_STACK); [|discriminate]. injection R as <-. exists (ba_eqb x y). rewrite same_eqb, X, Y. auto.
  - destruct (run E c (script_i a) s) as [s1|] eqn:R1; [|discriminate]. destruct (FI a La Ga _ _ R1) as (v & -> & Fa & OA & _). rewrite run_app in R. destruct (run E c (script_i b) (v :: s)) as [s2|] eqn:R2; [|discriminate]. destruct (FI b Lb Gb _ _ R2) as (w & -> & Fb & OB & _). rewrite run_code1 in R.
    destruct (main_op E c _ _) as [s3|] eqn:M in R; [|discriminate]. apply rel_main_inv in M. destruct M as (x & y & X & Y & ->). cbv beta iota in R. destruct (_ <=? MAX_STACK); [|discriminate]. injection R as <-. exists (off_rel r (Ok x) (Ok y)). rewrite (OA _ X), (OB _ Y). auto.
Qed.
End Agree.

(** Scripts of expressions are straight-line. *)
Lemma code_line o : straight (opcode_u8 o) = true -> (0x60 <? opcode_u8 o) = true -> line_op (OCode o).
Proof. intros A B. split; [exact A|now apply Z.ltb_lt]. Qed.
Lemma script_lines : (forall e, lits_i e -> Forall line_op (script_i e)) /\ (forall e, lits_b e -> Forall line_op (script_b e)).
Proof.
  assert (forall l o, Forall line_op l -> line_op o -> Forall line_op (l ++ [o])) as S by (intros; apply Forall_app; auto).
  apply exp_ind; cbn [lits_i lits_b script_i script_b]; intros; repeat match goal with H : _ /\ _ |- _ => destruct H end; rewrite ?Forall_app; repeat split; auto;
  repeat (apply Forall_cons || apply Forall_nil); try (apply code_line; reflexivity); try (cbn [line_op]; unfold script_int; auto; lia).
  destruct h; apply code_line; reflexivity.
Qed.
Lemma script_c_lines co : lits_c co -> Forall line_op (script_c co).
Proof.
  destruct script_lines as [A B]. destruct co as [a b|r a b]; cbn [lits_c script_c]; intros (La & Lb); rewrite !Forall_app; split; auto; split; auto; apply Forall_cons; try apply Forall_nil; [apply code_line; reflexivity|destruct r; apply code_line; reflexivity].
Qed.
