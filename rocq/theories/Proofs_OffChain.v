(** Straight-line scripts and NUM2BIN. *)
From Verif Require Import Base BaseLemmas Model_Encoding Spec_Encoding Proofs_Encoding Model_Integer Spec_Integer Proofs_Integer Model_ByteArray Model_Opcode Model_Script Spec_Script Proofs_Script Spec_Network Proofs_Network Proofs_Network2 Proofs_Network3 Proofs_ByteArray.
Local Open Scope list_scope.
Local Open Scope Z_scope.

(** ** Straight-line code *)
Definition straight (b : Z) : bool := negb (never b) && negb (existsb (Z.eqb b) [0x63; 0x64; 0x67; 0x68; 0x6b; 0x6c; 0xab]).
Fixpoint flat (E : env) (c : list Z) (l : list instr) (s : list (list Z)) : option (list (list Z)) :=
  match l with
  | [] => Some s
  | i :: r =>
    match (match i with Push d => if MAX_ELEMENT <? zlen d then None else Some (d :: s) | Exec b => main_op E c b s end) with
    | Some s' => if zlen s' <=? MAX_STACK then flat E c r s' else None
    | None => None
    end
  end.
Definition plain_chunk (c : list Z * instr) : Prop :=
  match snd c with Push d => hd 0 (fst c) = push_head d | Exec b => straight b = true end.

Lemma step_straight E bs b rest s a c : straight b = true ->
  step E bs (Exec b) rest (Machine s a [] c) = option_map (fun s' => Machine s' a [] c) (main_op E c b s).
Proof.
  unfold straight. intros H. apply andb_prop in H. destruct H as [N X]. apply negb_true_iff in N, X. cbn [step]. rewrite N. cbn [existsb] in X.
  repeat (apply orb_false_iff in X; destruct X as [?%Z.eqb_neq X]).
  destruct b as [|p|p]; try reflexivity. repeat (destruct p as [p|p|]; try reflexivity; try (exfalso; lia)).
Qed.
Lemma steps_flat E l : Forall plain_chunk l -> forall s c,
  steps E l (Machine s [] [] c) = option_map (fun s' => Machine s' [] [] c) (flat E c (map snd l) s).
Proof.
  induction 1 as [|[bs i] l H _ IH]; intros s c; [reflexivity|]. unfold plain_chunk in H. cbn [fst snd] in H. cbn [steps map flat snd].
  destruct i as [d|b].
  - cbn [step active m_exec forallb negb]. destruct (MAX_ELEMENT <? zlen d); [reflexivity|]. rewrite H, Z.eqb_refl, fits1, zlen_nil, Z.add_0_r.
    destruct (zlen (d :: s) <=? MAX_STACK); [apply IH|reflexivity].
  - rewrite (step_straight _ _ _ _ _ _ _ H). destruct (main_op E c b s) as [s'|]; cbn [option_map]; [|reflexivity]. rewrite fits1, zlen_nil, Z.add_0_r.
    destruct (zlen s' <=? MAX_STACK); [apply IH|reflexivity].
Qed.
Lemma flat_app E c a : forall b s, flat E c (a ++ b) s = match flat E c a s with Some s' => flat E c b s' | None => None end.
Proof.
  induction a as [|i a IH]; intros b s; [reflexivity|]. cbn [app flat]. destruct (match i with Push _ => _ | Exec _ => _ end) as [s'|]; [|reflexivity].
  destruct (zlen s' <=? MAX_STACK); [apply IH|reflexivity].
Qed.

(** The instruction of an op and its bytes. *)
Definition instr_of (o : op) : instr :=
  match o with OCode c => Exec (opcode_u8 c) | OInvalid b => Exec b | OPushArray a _ => Push (ba_data a) | OPushBool b => Push (bool_item b) | OPushInt i => Push (encode_int i) end.
Definition line_op (o : op) : Prop :=
  match o with OCode c => straight (opcode_u8 c) = true /\ 0x60 < opcode_u8 c | OPushArray a m => m = true /\ bytes_ok (ba_data a) /\ zlen (ba_data a) < 2 ^ 32 | OPushInt i => script_int i | _ => False end.
Lemma small_from_u8 : Forall (fun i => match opcode_from_u8 (opcode_u8 OP_1 + i - 1) with Some c => opcode_u8 c = 0x50 + i | None => False end) (map Z.of_nat (seq 1 16)).
Proof. vm_compute. repeat constructor. Qed.
Lemma line_ser o : line_op o -> exists a, serialize_op o = Ok a /\ chunk (ba_data a) (instr_of o) /\ plain_chunk (ba_data a, instr_of o).
Proof.
  destruct o as [c|b|a m|b|i]; cbn [line_op]; try tauto.
  - intros [S L]. eexists. split; [reflexivity|]. cbn [serialize_opcode ba_new ba_data instr_of]. split; [|exact S]. constructor. pose proof (opcode_u8_range c). right. lia.
  - intros (-> & O & L). destruct (ser_push a true O L) as (r & S & D). exists r. split; [exact S|]. rewrite D. split; [now apply push_chunk|]. unfold plain_chunk. cbn [fst snd instr_of]. apply push_bytes_hd.
  - intros H. unfold serialize_op. cbn [instr_of]. destruct (Z.eqb_spec i (-1)) as [->|N1].
    { eexists. split; [reflexivity|]. split; [exact CkNeg1|reflexivity]. }
    destruct (Z.eqb_spec i 0) as [->|N0]. { eexists. split; [reflexivity|]. split; [exact CkEmpty|reflexivity]. }
    destruct ((1 <=? i) && (i <=? 16)) eqn:R.
    { assert (1 <= i <= 16) as R' by lia. pose proof small_from_u8 as F. rewrite Forall_forall in F. specialize (F i). destruct (opcode_from_u8 (opcode_u8 OP_1 + i - 1)) as [c|].
      - eexists. split; [reflexivity|]. cbn [serialize_opcode ba_new ba_data]. rewrite F; [|apply in_map_iff; exists (Z.to_nat i); split; [lia|apply in_seq; lia]].
        assert (encode_int i = [i]) as ->. { clear -R'. assert (i = 1 \/ i = 2 \/ i = 3 \/ i = 4 \/ i = 5 \/ i = 6 \/ i = 7 \/ i = 8 \/ i = 9 \/ i = 10 \/ i = 11 \/ i = 12 \/ i = 13 \/ i = 14 \/ i = 15 \/ i = 16) as D by lia. repeat (destruct D as [->|D]; [reflexivity|]). subst i. reflexivity. }
        split; [now constructor|]. unfold plain_chunk. cbn [fst snd hd push_head]. assert ((1 <=? i) && (i <=? 16) = true) as -> by lia. reflexivity.
      - exfalso. apply F. apply in_map_iff. exists (Z.to_nat i). split; [lia|apply in_seq; lia]. }
    destruct (Z.eqb_spec i (-0x80000000)) as [->|NM]. { unfold script_int in H. lia. }
    destruct (encode_int_correct i ltac:(unfold script_int in H; lia)) as (_ & _ & O & L).
    destruct (ser_push (ba_unnamed (encode_int i)) true O ltac:(unfold zlen; cbn [ba_unnamed ba_data]; change (2 ^ 32) with 4294967296; lia)) as (r & S & D). exists r. split; [exact S|]. rewrite D. cbn [ba_unnamed ba_data].
    split; [apply push_chunk; unfold zlen; change (2 ^ 32) with 4294967296; lia|]. unfold plain_chunk. cbn [fst snd]. apply push_bytes_hd.
Qed.
Lemma line_op_ok o : line_op o -> op_ok o.
Proof. destruct o as [c|b|a m|b|i]; cbn; try tauto. intros [_ L]. repeat split; intros ->; vm_compute in L; discriminate. Qed.
(** Serialised straight-line code runs as [flat]. *)
Lemma line_executes E ops bs : Forall line_op ops -> serialize_ops ops = Ok bs -> forall s s',
  executes E (ba_data bs) s s' <-> zlen (ba_data bs) <= MAX_SCRIPT /\ zlen (filter (fun o => match o with OCode c => 0x60 <? opcode_u8 c | _ => false end) ops) <= MAX_OPS /\ flat E (ba_data bs) (map instr_of ops) s = Some s'.
Proof.
  intros F S s s'. assert (bytes_ok (ba_data bs)) as Ok.
  { destruct (ser_ops_ok ops) as (a & ? & ? & S' & _ & _ & _ & _ & O). { eapply Forall_impl; [|exact F]. exact line_op_ok. } rewrite S in S'. apply Ok_inj in S'. now subst a. }
  assert (exists l, decodes (ba_data bs) l /\ map snd l = map instr_of ops /\ Forall plain_chunk l /\ op_count l = zlen (filter (fun o => match o with OCode c => 0x60 <? opcode_u8 c | _ => false end) ops)) as (l & D & M & P & C).
  { unfold serialize_ops in S. destruct (omap serialize_op ops) as [ps|?|] eqn:O; [|discriminate S|discriminate S]. cbn [obind] in S. apply Ok_inj in S. subst bs. rewrite from_parts_data. clear Ok. revert ps O.
    induction F as [|o ops L _ IH]; intros ps O.
    - cbn in O. apply Ok_inj in O. subst ps. exists []. split; [split; [reflexivity|constructor]|]. repeat split. constructor.
    - cbn [omap] in O. destruct (line_ser o L) as (a & A & K & P). rewrite A in O. cbn [obind] in O. destruct (omap serialize_op ops) as [ps'|?|]; [|discriminate O|discriminate O]. cbn [obind] in O. apply Ok_inj in O. subst ps.
      destruct (IH ps' eq_refl) as (l & D & M & Q & C). exists ((ba_data a, instr_of o) :: l). split; [change ((ba_data a, instr_of o) :: l) with ([(ba_data a, instr_of o)] ++ l); cbn [map concat]; apply decodes_app; [now apply decodes_one|exact D]|].
      split; [cbn [map snd]; now rewrite M|]. split; [now constructor|]. unfold op_count in *. cbn [filter snd]. destruct o as [c|b|a' m|b|i]; cbn [line_op instr_of] in *; try tauto.
      + destruct (0x60 <? opcode_u8 c); [rewrite !zlen_cons; lia|exact C]. }
  rewrite (executes_iff _ _ _ _ _ Ok D), C, (steps_flat _ _ P), M. split.
  - intros (A & B & m & S1 & X & <-). split; [exact A|]. split; [exact B|]. destruct (flat _ _ _ _) as [s1|]; [|discriminate]. cbn in S1. injection S1 as <-. reflexivity.
  - intros (A & B & S1). split; [exact A|]. split; [exact B|]. rewrite S1. eexists. split; [reflexivity|]. split; reflexivity.
Qed.

(** ** NUM2BIN *)
(** Sign and magnitude in n bytes. *)
Definition sign_mag (i n : Z) (bs : list Z) : Prop := bytes_ok bs /\ zlen bs = n /\ le_value bs = Z.abs i + (if i <? 0 then 2 ^ (8 * n - 1) else 0).
Lemma sign_mag_unique i n a b : sign_mag i n a -> sign_mag i n b -> a = b.
Proof. intros (A1 & A2 & A3) (B1 & B2 & B3). apply le_value_inj; auto; [unfold zlen in *; lia|lia]. Qed.
Lemma from_int_sign_mag i n bs : script_int i -> 1 <= n < 2 ^ 28 -> from_int i n = Ok bs -> Z.abs i < 2 ^ (8 * n - 1) /\ sign_mag i n bs.
Proof.
  intros Hi Hn H. destruct (from_int_spec i n Hi Hn) as [A B]. destruct (Z.lt_ge_cases (Z.abs i) (2 ^ (8 * n - 1))) as [L|L]; [|rewrite (B ltac:(lia)) in H; discriminate].
  split; [exact L|]. destruct (A L) as (bs' & E & L' & O & N). rewrite E in H. apply Ok_inj in H. subst bs'. split; [exact O|]. split; [exact L'|].
  unfold script_num in N. destruct bs as [|x r]; [unfold zlen in L'; cbn in L'; lia|]. rewrite L' in N. set (v := le_value (x :: r)) in *.
  destruct (Z.ltb_spec v (2 ^ (8 * n - 1))) as [V|V].
  - assert (0 <= v) by (apply le_value_bound; exact O). destruct (Z.ltb_spec i 0); lia.
  - destruct (Z.ltb_spec i 0); [lia|]. assert (i = 0) as -> by lia. exfalso.
    rewrite (from_int_unfold 0 n Hi Hn) in E. cbv zeta in E. change (Z.abs 0) with 0 in *. destruct (Z.ltb_spec 0 (2 ^ (8 * n - 1))) as [P|P]; [|discriminate]. change (0 <? 0) with false in E. apply Ok_inj in E.
    destruct (magbytes_spec 0 (Z.to_nat n)) as (_ & _ & C); [lia|lia|rewrite Z2Nat.id by lia; lia|]. rewrite E in C. fold v in C. lia.
Qed.
Definition num2bin (m : list Z) (k : Z) : list Z :=
  match rev m with
  | [] => repeat 0 (Z.to_nat k)
  | top :: t => if zlen m =? k then m else rev t ++ [top mod 128] ++ repeat 0 (Z.to_nat (k - zlen m - 1)) ++ [top - top mod 128]
  end.
(** A minimal number and its magnitude *)
Lemma num_mag m i : bytes_ok m -> script_num m = i -> m <> [] -> minimal_num m -> i <> 0 /\ sign_mag i (zlen m) m /\ Z.abs i < 2 ^ (8 * zlen m - 1) /\ 2 ^ (8 * (zlen m - 1) - 1) <= Z.abs i.
Proof.
  intros O N NE M. destruct M as [->|(r & l & -> & M)]; [contradiction|]. apply bytes_ok_app in O. destruct O as [O1 O2]. apply bytes_ok_cons in O2. destruct O2 as [O2 _].
  assert (zlen (r ++ [l]) = zlen r + 1) as L by (rewrite zlen_app; reflexivity). rewrite script_num_snoc in N by assumption. rewrite L.
  pose proof (le_value_bound r O1) as B. pose proof (zlen_nonneg r) as P.
  assert (le_value (r ++ [l]) = le_value r + 2 ^ (8 * zlen r) * l) as V. { rewrite le_value_app. cbn [le_value]. lia. }
  replace (8 * (zlen r + 1) - 1) with (8 * zlen r + 7) by lia. rewrite Z.pow_add_r by lia. change (2 ^ 7) with 128. replace (8 * (zlen r + 1 - 1) - 1) with (8 * zlen r - 1) by lia.
  set (q := 2 ^ (8 * zlen r)) in *. assert (0 < q) by (apply Z.pow_pos_nonneg; lia).
  assert (Z.abs i = le_value r + q * (l mod 128) /\ (i <? 0) = (128 <=? l) /\ 2 ^ (8 * zlen r - 1) <= Z.abs i /\ i <> 0) as (A & S & G & Z0).
  { assert (le_value r + q * (l mod 128) <> 0 /\ 2 ^ (8 * zlen r - 1) <= le_value r + q * (l mod 128)) as [NZ G].
    { pose proof (Z.mod_pos_bound l 128 ltac:(lia)) as MB. destruct M as [M|(j & p & -> & Hp)].
      - assert (q <= q * (l mod 128)) by nia. split; [lia|]. destruct (Z.eq_dec (zlen r) 0) as [E0|E0]; [rewrite E0; change (2 ^ (8 * 0 - 1)) with 0; nia|]. assert (2 ^ (8 * zlen r - 1) <= q) by (apply Z.pow_le_mono_r; lia). lia.
      - rewrite le_value_app in *. cbn [le_value] in *. rewrite zlen_app in *. change (zlen [p]) with 1 in *. pose proof (zlen_nonneg j). apply bytes_ok_app in O1. destruct O1 as [O1 _]. pose proof (le_value_bound j O1) as [Bj _].
        replace (8 * (zlen j + 1) - 1) with (8 * zlen j + 7) by lia. rewrite Z.pow_add_r by lia. change (2 ^ 7) with 128. assert (0 < 2 ^ (8 * zlen j)) by (apply Z.pow_pos_nonneg; lia). assert (0 <= q * (l mod 128)) by nia. split; nia. }
    unfold byte_ok in O2. destruct (Z.ltb_spec l 128) as [K|K].
    - rewrite Z.mod_small in * by lia. assert (0 <= i) by nia. rewrite Z.abs_eq by lia. split; [lia|]. split; [|lia]. destruct (Z.leb_spec 128 l); [lia|]. apply Z.ltb_ge. lia.
    - assert (l mod 128 = l - 128) as Q. { symmetry. apply (Z.mod_unique_pos l 128 1); lia. } rewrite Q in *. assert (i < 0) by nia. rewrite Z.abs_neq by lia. split; [lia|]. split; [|lia]. destruct (Z.leb_spec 128 l); [|lia]. apply Z.ltb_lt. lia. }
  split; [exact Z0|]. pose proof (Z.mod_pos_bound l 128 ltac:(lia)) as MB. unfold byte_ok in O2. split; [|split; [nia|exact G]].
  split; [apply bytes_ok_app; split; [exact O1|apply bytes_ok_cons; split; [exact O2|apply bytes_ok_nil]]|]. split; [exact L|]. rewrite V, S, A. replace (8 * (zlen r + 1) - 1) with (8 * zlen r + 7) by lia. rewrite Z.pow_add_r by lia. change (2 ^ 7) with 128. fold q.
  destruct (Z.leb_spec 128 l); [|rewrite Z.mod_small by lia; lia]. assert (l mod 128 = l - 128) as Q by (symmetry; apply (Z.mod_unique_pos l 128 1); lia). rewrite Q. lia.
Qed.
Lemma num2bin_sign_mag i k : script_int i -> 1 <= k -> zlen (encode_int i) <= k -> sign_mag i k (num2bin (encode_int i) k).
Proof.
  intros Hi Hk L. destruct (encode_int_correct i ltac:(unfold script_int in Hi; lia)) as (N & M & O & _). set (m := encode_int i) in *. unfold num2bin.
  destruct (list_snoc m) as [E|(r & l & E)].
  - rewrite E in *. cbn [rev]. unfold script_num in N. subst i. split; [apply bytes_ok_repeat0|]. split; [unfold zlen; rewrite repeat_length; lia|]. rewrite le_value_repeat0. reflexivity.
  - assert (m <> []) as NE by (rewrite E; now destruct r). destruct (num_mag m i O N NE M) as (NZ & SM & _). assert (rev m = l :: rev r) as R by (rewrite E, rev_app_distr; reflexivity). rewrite R. destruct (Z.eqb_spec (zlen m) k) as [<-|NK]; [exact SM|].
    rewrite rev_involutive. destruct SM as (_ & _ & V). rewrite E in O, V, L, NK |- *. apply bytes_ok_app in O. destruct O as [O1 O2]. apply bytes_ok_cons in O2. destruct O2 as [O2 _]. unfold byte_ok in O2.
    rewrite zlen_app in *. change (zlen [l]) with 1 in *. pose proof (zlen_nonneg r). pose proof (Z.mod_pos_bound l 128 ltac:(lia)) as MB.
    split; [|split].
    + rewrite !bytes_ok_app. split; [exact O1|]. split; [apply bytes_ok_cons; split; [unfold byte_ok; lia|apply bytes_ok_nil]|]. split; [apply bytes_ok_repeat0|]. apply bytes_ok_cons. split; [unfold byte_ok; lia|apply bytes_ok_nil].
    + rewrite !zlen_app. unfold zlen at 3. rewrite repeat_length. change (zlen [l mod 128]) with 1. change (zlen [l - l mod 128]) with 1. lia.
    + rewrite !le_value_app, le_value_repeat0. rewrite le_value_app in V. cbn [le_value] in *. unfold zlen at 3. rewrite repeat_length. change (zlen [l mod 128]) with 1.
      replace (8 * (zlen r + 1) - 1) with (8 * zlen r + 7) in V by lia. rewrite Z.pow_add_r in V by lia. change (2 ^ 7) with 128 in V.
      replace (8 * k - 1) with (8 * zlen r + (8 * 1 + (8 * Z.of_nat (Z.to_nat (k - (zlen r + 1) - 1)) + 7))) by lia. rewrite !Z.pow_add_r by lia. change (2 ^ (8 * 1)) with 256. change (2 ^ 7) with 128.
      set (q := 2 ^ (8 * zlen r)) in *. set (q2 := 2 ^ (8 * Z.of_nat (Z.to_nat (k - (zlen r + 1) - 1)))). assert (0 < q) by (apply Z.pow_pos_nonneg; lia).
      assert (forall a b : Z, le_value r < q -> 0 <= le_value r -> True) as _ by auto. pose proof (le_value_bound r O1) as B. fold q in B.
      destruct (Z.ltb_spec i 0) as [I|I].
      * assert (128 <= l) by nia. assert (l mod 128 = l - 128) as Q by (symmetry; apply (Z.mod_unique_pos l 128 1); lia). rewrite Q. lia.
      * assert (l < 128). { destruct (encode_int_correct i ltac:(unfold script_int in Hi; lia)) as (N' & _). fold m in N'. rewrite E in N'. rewrite script_num_snoc in N' by (auto; unfold byte_ok; lia). destruct (Z.ltb_spec l 128); [lia|]. nia. }
        rewrite Z.mod_small by lia. lia.
Qed.
(** NUM2BIN fits iff the number fits. *)
Lemma encode_len i k : script_int i -> 1 <= k -> (zlen (encode_int i) <= k <-> Z.abs i < 2 ^ (8 * k - 1)).
Proof.
  intros Hi Hk. destruct (encode_int_correct i ltac:(unfold script_int in Hi; lia)) as (N & M & O & _). set (m := encode_int i) in *.
  destruct m as [|x r] eqn:E. { unfold script_num in N. subst i. rewrite zlen_nil. change (Z.abs 0) with 0. split; [|lia]. intros _. apply Z.pow_pos_nonneg; lia. }
  rewrite <- E in *. assert (m <> []) as NE by (rewrite E; discriminate). destruct (num_mag m i O N NE M) as (_ & _ & A & B). split; intros H.
  - eapply Z.lt_le_trans; [exact A|]. apply Z.pow_le_mono_r; lia.
  - destruct (Z.le_gt_cases (zlen m) k) as [|G]; [assumption|]. exfalso. assert (2 ^ (8 * k - 1) <= 2 ^ (8 * (zlen m - 1) - 1)) by (apply Z.pow_le_mono_r; lia). lia.
Qed.
Lemma from_int_num2bin i k d : script_int i -> 1 <= k <= MAX_ELEMENT ->
  (from_int i k = Ok d <-> zlen (encode_int i) <= k /\ d = num2bin (encode_int i) k).
Proof.
  unfold MAX_ELEMENT. intros Hi Hk. rewrite (encode_len i k Hi) by lia. change (1 <= k <= 520) in Hk. assert (1 <= k < 2 ^ 28) as Hk' by (change (2 ^ 28) with 268435456; lia). split.
  - intros H. destruct (from_int_sign_mag i k d Hi Hk' H) as [L S]. split; [exact L|]. eapply sign_mag_unique; [exact S|]. apply num2bin_sign_mag; [exact Hi|lia|]. apply encode_len; auto; lia.
  - intros [L ->]. destruct (from_int_spec i k Hi Hk') as [A _]. destruct (A L) as (bs & H & _). rewrite H. f_equal. destruct (from_int_sign_mag i k bs Hi Hk' H) as [_ S]. eapply sign_mag_unique; [exact S|]. apply num2bin_sign_mag; [exact Hi|lia|]. apply encode_len; auto; lia.
Qed.
