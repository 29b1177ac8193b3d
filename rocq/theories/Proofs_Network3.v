(** The network interpreter on the standard scripts. *)
From Verif Require Import Base BaseLemmas Spec_Encoding Model_ByteArray Model_Address Spec_Script Proofs_Script Spec_Destination Spec_Network Proofs_Network.
Local Open Scope list_scope.
Local Open Scope Z_scope.

Lemma decodes_fun bs l l' : bytes_ok bs -> decodes bs l -> decodes bs l' -> l = l'.
Proof.
  intros Hok [E1 F1] [E2 F2].
  assert (forall l : list (list Z * instr), Forall (fun c => chunk (fst c) (snd c)) l -> Forall2 chunk (map fst l) (map snd l)) as K.
  { intros k F. induction F as [|c k H _ IH]; cbn; constructor; auto. }
  assert (map fst l = map fst l') as A. { eapply chunks_unique; [apply K, F1|apply K, F2|congruence|congruence]. }
  assert (map snd l = map snd l') as B. { eapply (reads_as_fun bs); [exact Hok|exists (map fst l); split; [exact E1|apply K, F1]|exists (map fst l'); split; [exact E2|apply K, F2]]. }
  clear -A B. revert l' A B. induction l as [|[a b] l IH]; intros [|[a' b'] l'] A B; cbn in *; try discriminate; [reflexivity|].
  injection A as <- A. injection B as <- B. f_equal. auto.
Qed.
Lemma executes_iff E bs l s s' : bytes_ok bs -> decodes bs l ->
  (executes E bs s s' <-> zlen bs <= MAX_SCRIPT /\ op_count l <= MAX_OPS /\ exists m, steps E l (Machine s [] [] bs) = Some m /\ m_exec m = [] /\ m_main m = s').
Proof.
  intros Hok D. split.
  - intros (l' & m & D' & L & O & S & X & M). rewrite <- (decodes_fun _ _ _ Hok D D') in *. split; [exact L|]. split; [exact O|]. eauto.
  - intros (L & O & m & S & X & M). exists l, m. auto 10.
Qed.
Lemma push_only_iff bs l : bytes_ok bs -> decodes bs l -> (push_only bs <-> Forall (fun c => exists d, snd c = Push d) l).
Proof.
  intros Hok D. split; [|intros F; exists l; auto]. intros (l' & D' & F). now rewrite (decodes_fun _ _ _ Hok D D').
Qed.
Lemma decodes_app a b l k : decodes a l -> decodes b k -> decodes (a ++ b) (l ++ k).
Proof. intros [-> F1] [-> F2]. split; [rewrite map_app, concat_app; reflexivity|apply Forall_app; auto]. Qed.
Lemma decodes_one b i : chunk b i -> decodes b [(b, i)].
Proof. intros H. split; [cbn; now rewrite app_nil_r|constructor; auto]. Qed.
Lemma decodes_push d : zlen d < 2 ^ 32 -> decodes (push_bytes d true) [(push_bytes d true, Push d)].
Proof. intros H. apply decodes_one. now apply push_chunk. Qed.
Lemma push_bytes_hd d : hd 0 (push_bytes d true) = push_head d.
Proof.
  unfold push_bytes. cbn [andb]. destruct (one_op d) eqn:O; [reflexivity|]. rewrite (push_head_long _ O). unfold nonmin_prefix.
  assert (zlen d <> 0) by (destruct d; [discriminate|rewrite zlen_cons; pose proof (zlen_nonneg d); lia]).
  destruct (Z.eqb_spec (zlen d) 0); [lia|]. destruct (Z.leb_spec (zlen d) 75); [reflexivity|]. destruct (Z.leb_spec (zlen d) 255); [reflexivity|]. destruct (Z.leb_spec (zlen d) 65535); reflexivity.
Qed.
Lemma push_bytes_ok d m : bytes_ok d -> zlen d < 2 ^ 32 -> bytes_ok (push_bytes d m).
Proof. intros H L. eapply chunk_ok; [apply push_chunk; exact L|exact H]. Qed.
Lemma push_bytes_len d : zlen d <= MAX_ELEMENT -> zlen (push_bytes d true) <= zlen d + 3.
Proof.
  intros H. unfold push_bytes, nonmin_prefix, MAX_ELEMENT in *. pose proof (zlen_nonneg d). cbn [andb]. destruct (one_op d); [rewrite zlen_cons, zlen_nil; lia|]. rewrite zlen_app.
  destruct (Z.eqb_spec (zlen d) 0); [rewrite !zlen_cons, zlen_nil; lia|]. destruct (Z.leb_spec (zlen d) 75); [rewrite !zlen_cons, zlen_nil; lia|].
  destruct (Z.leb_spec (zlen d) 255); [rewrite !zlen_cons, zlen_nil; lia|]. destruct (Z.leb_spec (zlen d) 65535); [|lia]. rewrite zlen_cons, le_bytes_zlen. lia.
Qed.
Lemma op_count_app a b : op_count (a ++ b) = op_count a + op_count b.
Proof. unfold op_count. now rewrite filter_app, zlen_app. Qed.

(** *** Running pushes *)
Lemma step_push E d rest s a c : zlen d <= MAX_ELEMENT -> step E (push_bytes d true) (Push d) rest (Machine s a [] c) = Some (Machine (d :: s) a [] c).
Proof. intros H. unfold step. destruct (Z.ltb_spec MAX_ELEMENT (zlen d)); [lia|]. cbn [active m_exec forallb negb]. now rewrite push_bytes_hd, Z.eqb_refl. Qed.

(** Steps of a prefix only look at the rest through OP_CODESEPARATOR; pushes do not. *)
Lemma steps_pushes_app E l k : Forall (fun c => exists d, snd c = Push d) l -> forall m,
  steps E (l ++ k) m = match steps E l m with Some m' => steps E k m' | None => None end.
Proof.
  induction 1 as [|[bs i] l [d Hd] _ IH]; intros m; [reflexivity|]. cbn [app steps]. cbn [snd] in Hd. subst i.
  replace (step E bs (Push d) (concat (map fst (l ++ k))) m) with (step E bs (Push d) (concat (map fst l)) m) by reflexivity.
  destruct (step E bs (Push d) (concat (map fst l)) m) as [m'|]; [|reflexivity]. destruct (stack_fits m'); [apply IH|reflexivity].
Qed.
Lemma pushes_op_count l : Forall (fun c => exists d, snd c = Push d) l -> op_count l = 0.
Proof. unfold op_count. induction 1 as [|[bs i] l [d Hd] _ IH]; [reflexivity|]. cbn [snd] in Hd. subst i. exact IH. Qed.
(** What a push-only script leaves, when it runs. *)
Definition pushed (l : list (list Z * instr)) : list (list Z) := flat_map (fun c => match snd c with Push d => [d] | _ => [] end) l.
Lemma steps_pushes E l : Forall (fun c => exists d, snd c = Push d) l -> forall m m', m_exec m = [] -> steps E l m = Some m' ->
  m_main m' = rev (pushed l) ++ m_main m /\ m_alt m' = m_alt m /\ m_exec m' = [] /\ m_code m' = m_code m.
Proof.
  induction 1 as [|[bs i] l [d Hd] _ IH]; intros m m' X S.
  - cbn in S. injection S as <-. auto.
  - cbn [snd] in Hd. subst i. cbn [steps] in S. destruct m as [s a x c]. cbn [m_exec] in X. subst x. cbn [step active m_exec forallb negb] in S.
    destruct (MAX_ELEMENT <? zlen d); [discriminate|]. destruct (hd 0 bs =? push_head d); [|discriminate]. destruct (stack_fits _); [|discriminate].
    apply IH in S; [|reflexivity]. cbn [m_main m_alt m_code m_exec] in S. destruct S as (-> & -> & -> & ->). repeat split. unfold pushed. cbn [flat_map snd app rev]. now rewrite <- app_assoc.
Qed.

(** *** P2PKH *)
Definition p2pkh_chunks (h : list Z) : list (list Z * instr) := [([0x76], Exec 0x76); ([0xa9], Exec 0xa9); (0x14 :: h, Push h); ([0x88], Exec 0x88); ([0xac], Exec 0xac)].
Definition p2sh_chunks (h : list Z) : list (list Z * instr) := [([0xa9], Exec 0xa9); (0x14 :: h, Push h); ([0x87], Exec 0x87)].
Lemma p2pkh_decodes h : zlen h = 20 -> decodes (locking_bytes P2PKH h) (p2pkh_chunks h).
Proof. intros H. split; [cbn; reflexivity|]. repeat constructor; cbn [fst snd]; lia. Qed.
Lemma p2sh_decodes h : zlen h = 20 -> decodes (locking_bytes P2SH h) (p2sh_chunks h).
Proof. intros H. split; [cbn; reflexivity|]. repeat constructor; cbn [fst snd]; lia. Qed.
Lemma locking_ok t h : bytes_ok h -> bytes_ok (locking_bytes t h).
Proof. intros H. destruct t; cbn [locking_bytes]; rewrite ?bytes_ok_app; repeat (split || apply bytes_ok_cons || apply bytes_ok_nil); auto; unfold byte_ok; lia. Qed.
Lemma locking_len t h : zlen h = 20 -> zlen (locking_bytes t h) <= MAX_SCRIPT.
Proof. intros H. unfold MAX_SCRIPT. destruct t; cbn [locking_bytes]; rewrite !zlen_app, ?zlen_cons, ?zlen_nil; lia. Qed.
Lemma head20 h : zlen h = 20 -> push_head h = 20.
Proof. intros H. rewrite push_head_long; [now rewrite H|]. destruct h as [|x [|y h]]; try reflexivity; unfold zlen in H; cbn in H; lia. Qed.
Lemma not_p2sh h k : ~ is_p2sh_lock (locking_bytes P2PKH h) k.
Proof. intros [_ H]. discriminate H. Qed.

Lemma fits1 (s a : list (list Z)) x c : stack_fits (Machine s a x c) = (zlen s + zlen a <=? MAX_STACK). Proof. reflexivity. Qed.
Ltac fits := rewrite fits1; match goal with |- context [?x <=? MAX_STACK] => let H := fresh in assert (x <= MAX_STACK) as H by (unfold MAX_STACK; rewrite ?zlen_cons, ?zlen_nil; cbn [zlen]; lia); apply Z.leb_le in H; rewrite H; clear H end.

Lemma p2pkh_steps E h sg pk : zlen h = 20 ->
  steps E (p2pkh_chunks h) (Machine [pk; sg] [] [] (locking_bytes P2PKH h)) =
  if same (e_ripemd160 E (e_sha256 E pk)) h then option_map (fun v => Machine [v] [] [] (locking_bytes P2PKH h)) (check (e_checksig E (locking_bytes P2PKH h) sg pk) sg) else None.
Proof.
  intros H. unfold p2pkh_chunks. generalize (locking_bytes P2PKH h) as lb. intros lb. cbn [steps].
  assert (step E [118] (Exec 118) (concat (map fst [([0xa9], Exec 0xa9); (0x14 :: h, Push h); ([0x88], Exec 0x88); ([0xac], Exec 0xac)])) (Machine [pk; sg] [] [] lb) = Some (Machine [pk; pk; sg] [] [] lb)) as -> by reflexivity.
  fits.
  assert (step E [169] (Exec 169) (concat (map fst [(0x14 :: h, Push h); ([0x88], Exec 0x88); ([0xac], Exec 0xac)])) (Machine [pk; pk; sg] [] [] lb) = Some (Machine [e_ripemd160 E (e_sha256 E pk); pk; sg] [] [] lb)) as -> by reflexivity.
  fits.
  assert (step E (20 :: h) (Push h) (concat (map fst [([0x88], Exec 0x88); ([0xac], Exec 0xac)])) (Machine [e_ripemd160 E (e_sha256 E pk); pk; sg] [] [] lb) = Some (Machine [h; e_ripemd160 E (e_sha256 E pk); pk; sg] [] [] lb)) as ->.
  { unfold step. rewrite H. cbn [hd]. rewrite (head20 _ H). reflexivity. }
  fits.
  assert (step E [136] (Exec 136) (concat (map fst [([0xac], Exec 0xac)])) (Machine [h; e_ripemd160 E (e_sha256 E pk); pk; sg] [] [] lb) = if same (e_ripemd160 E (e_sha256 E pk)) h then Some (Machine [pk; sg] [] [] lb) else None) as ->.
  { destruct (same (e_ripemd160 E (e_sha256 E pk)) h) eqn:S; cbn; rewrite S; reflexivity. }
  destruct (same (e_ripemd160 E (e_sha256 E pk)) h); [|reflexivity]. fits.
  assert (step E [172] (Exec 172) (concat (map (@fst (list Z) instr) [])) (Machine [pk; sg] [] [] lb) = option_map (fun v => Machine [v] [] [] lb) (check (e_checksig E lb sg pk) sg)) as ->.
  { cbn [step never existsb active m_exec forallb negb]. cbn. destruct (check (e_checksig E lb sg pk) sg); reflexivity. }
  destruct (check (e_checksig E lb sg pk) sg); cbn [option_map]; [|reflexivity]. fits. reflexivity.
Qed.

Lemma two_pushes_decode a b : zlen a <= MAX_ELEMENT -> zlen b <= MAX_ELEMENT -> decodes (push_bytes a true ++ push_bytes b true) [(push_bytes a true, Push a); (push_bytes b true, Push b)].
Proof.
  unfold MAX_ELEMENT. intros Ha Hb. change [(push_bytes a true, Push a); (push_bytes b true, Push b)] with ([(push_bytes a true, Push a)] ++ [(push_bytes b true, Push b)]).
  apply decodes_app; apply decodes_push; change (2 ^ 32) with 4294967296; lia.
Qed.
Lemma p2pkh_spend E h sg pk : zlen h = 20 -> bytes_ok h -> bytes_ok sg -> bytes_ok pk -> zlen sg <= MAX_ELEMENT -> zlen pk <= MAX_ELEMENT ->
  (spends_coin E (push_bytes sg true ++ push_bytes pk true) (locking_bytes P2PKH h) <->
   e_ripemd160 E (e_sha256 E pk) = h /\ e_checksig E (locking_bytes P2PKH h) sg pk = true).
Proof.
  intros H20 Oh Os Op Ls Lp. pose proof (two_pushes_decode sg pk Ls Lp) as D. pose proof (p2pkh_decodes h H20) as DL.
  assert (bytes_ok (push_bytes sg true ++ push_bytes pk true)) as OU. { apply bytes_ok_app. unfold MAX_ELEMENT in *. split; apply push_bytes_ok; auto; change (2 ^ 32) with 4294967296; lia. }
  assert (zlen (push_bytes sg true ++ push_bytes pk true) <= MAX_SCRIPT) as LU. { rewrite zlen_app. pose proof (push_bytes_len _ Ls). pose proof (push_bytes_len _ Lp). unfold MAX_SCRIPT, MAX_ELEMENT in *. lia. }
  assert (forall s, executes E (push_bytes sg true ++ push_bytes pk true) [] s <-> s = [pk; sg]) as EU.
  { intros s. rewrite (executes_iff _ _ _ _ _ OU D). cbn [steps]. rewrite (step_push _ _ _ _ _ _ Ls). fits. rewrite (step_push _ _ _ _ _ _ Lp). fits. split.
    - intros (_ & _ & m & M & _ & <-). injection M as <-. reflexivity.
    - intros ->. split; [exact LU|]. split; [cbn; unfold MAX_OPS; lia|]. eexists. split; [reflexivity|]. split; reflexivity. }
  assert (push_only (push_bytes sg true ++ push_bytes pk true)) as PO. { apply (push_only_iff _ _ OU D). constructor; [cbn; eauto|]. constructor; [cbn; eauto|constructor]. }
  assert (forall s', executes E (locking_bytes P2PKH h) [pk; sg] s' <-> e_ripemd160 E (e_sha256 E pk) = h /\ exists v, check (e_checksig E (locking_bytes P2PKH h) sg pk) sg = Some v /\ s' = [v]) as EL.
  { intros s'. rewrite (executes_iff _ _ _ _ _ (locking_ok P2PKH h Oh) DL). rewrite (p2pkh_steps _ _ _ _ H20). split.
    - intros (_ & _ & m & M & _ & <-). destruct (same _ h) eqn:S; [|discriminate]. apply same_iff in S. split; [exact S|]. destruct (check _ sg) as [v|]; [|discriminate]. cbn in M. injection M as <-. eauto.
    - intros (S & v & C & ->). apply same_iff in S. rewrite S, C. split; [now apply locking_len|]. split; [cbn; unfold MAX_OPS; lia|]. eexists. split; [reflexivity|]. split; reflexivity. }
  unfold spends_coin. split.
  - intros (_ & s & s' & X & Y & [[_ (v & -> & T)]|(k & ? & ? & ? & K & _)]); [|exfalso; eapply not_p2sh; exact K].
    apply EU in X. subst s. apply EL in Y. destruct Y as (A & w & C & W). injection W as <-. split; [exact A|]. unfold check in C. destruct (e_checksig E (locking_bytes P2PKH h) sg pk); [reflexivity|]. destruct sg; [|discriminate]. injection C as <-. discriminate T.
  - intros (A & C). split; [exact PO|]. exists [pk; sg], [[1]]. split; [now apply EU|]. split; [apply EL; split; [exact A|]; exists [1]; split; [unfold check; now rewrite C|reflexivity]|].
    left. split; [intros k; apply not_p2sh|]. exists [1]. split; reflexivity.
Qed.

(** *** P2SH *)
Lemma p2sh_steps E h r s : zlen h = 20 -> zlen s <= 998 ->
  steps E (p2sh_chunks h) (Machine (r :: s) [] [] (locking_bytes P2SH h)) = Some (Machine (bool_item (same (e_ripemd160 E (e_sha256 E r)) h) :: s) [] [] (locking_bytes P2SH h)).
Proof.
  intros H L. unfold p2sh_chunks. generalize (locking_bytes P2SH h) as lb. intros lb. cbn [steps].
  assert (step E [169] (Exec 169) (concat (map fst [(0x14 :: h, Push h); ([0x87], Exec 0x87)])) (Machine (r :: s) [] [] lb) = Some (Machine (e_ripemd160 E (e_sha256 E r) :: s) [] [] lb)) as -> by reflexivity.
  fits.
  assert (step E (20 :: h) (Push h) (concat (map fst [([0x87], Exec 0x87)])) (Machine (e_ripemd160 E (e_sha256 E r) :: s) [] [] lb) = Some (Machine (h :: e_ripemd160 E (e_sha256 E r) :: s) [] [] lb)) as ->.
  { unfold step. rewrite H. cbn [hd]. rewrite (head20 _ H). reflexivity. }
  fits.
  assert (step E [135] (Exec 135) (concat (map (@fst (list Z) instr) [])) (Machine (h :: e_ripemd160 E (e_sha256 E r) :: s) [] [] lb) = Some (Machine (bool_item (same (e_ripemd160 E (e_sha256 E r)) h) :: s) [] [] lb)) as -> by reflexivity.
  fits. reflexivity.
Qed.
Lemma p2sh_steps_big E h r s m : zlen h = 20 -> steps E (p2sh_chunks h) (Machine (r :: s) [] [] (locking_bytes P2SH h)) = Some m -> zlen s <= 998.
Proof.
  intros H. unfold p2sh_chunks. generalize (locking_bytes P2SH h) as lb. intros lb. cbn [steps].
  assert (step E [169] (Exec 169) (concat (map fst [(0x14 :: h, Push h); ([0x87], Exec 0x87)])) (Machine (r :: s) [] [] lb) = Some (Machine (e_ripemd160 E (e_sha256 E r) :: s) [] [] lb)) as -> by reflexivity.
  destruct (stack_fits _); [|discriminate].
  assert (step E (20 :: h) (Push h) (concat (map fst [([0x87], Exec 0x87)])) (Machine (e_ripemd160 E (e_sha256 E r) :: s) [] [] lb) = Some (Machine (h :: e_ripemd160 E (e_sha256 E r) :: s) [] [] lb)) as ->.
  { unfold step. rewrite H. cbn [hd]. rewrite (head20 _ H). reflexivity. }
  destruct (stack_fits (Machine (h :: e_ripemd160 E (e_sha256 E r) :: s) [] [] lb)) eqn:F; [|discriminate]. intros _. rewrite fits1 in F. apply Z.leb_le in F. unfold MAX_STACK in F. rewrite !zlen_cons, zlen_nil in F. lia.
Qed.
Lemma p2sh_spend E h u lu redeem : zlen h = 20 -> bytes_ok h -> bytes_ok u -> decodes u lu -> bytes_ok redeem -> zlen redeem <= MAX_ELEMENT -> zlen u + zlen redeem + 3 <= MAX_SCRIPT ->
  (spends_coin E (u ++ push_bytes redeem true) (locking_bytes P2SH h) <->
   e_ripemd160 E (e_sha256 E redeem) = h /\ push_only u /\ exists s s', executes E u [] s /\ zlen s <= 998 /\ executes E redeem s s' /\ success s').
Proof.
  intros H20 Oh Ou Du Or Lr Lu. assert (zlen redeem < 2 ^ 32) as Lr' by (unfold MAX_ELEMENT in Lr; change (2 ^ 32) with 4294967296; lia).
  pose proof (decodes_app _ _ _ _ Du (decodes_push redeem Lr')) as D. pose proof (p2sh_decodes h H20) as DL.
  assert (bytes_ok (u ++ push_bytes redeem true)) as OU by (apply bytes_ok_app; split; [exact Ou|now apply push_bytes_ok]).
  pose proof (push_bytes_len _ Lr) as LP.
  assert (zlen (u ++ push_bytes redeem true) <= MAX_SCRIPT) as LU by (rewrite zlen_app; lia).
  assert (push_only (u ++ push_bytes redeem true) <-> push_only u) as PO.
  { rewrite (push_only_iff _ _ OU D), (push_only_iff _ _ Ou Du), Forall_app. split; [tauto|]. intros F. split; [exact F|]. constructor; [cbn; eauto|constructor]. }
  assert (push_only u -> forall s, executes E (u ++ push_bytes redeem true) [] s <-> exists s0, s = redeem :: s0 /\ executes E u [] s0 /\ zlen s0 <= 999) as EU.
  { intros P s. apply (push_only_iff _ _ Ou Du) in P. rewrite (executes_iff _ _ _ _ _ OU D), op_count_app. rewrite (pushes_op_count _ P). change (op_count [(push_bytes redeem true, Push redeem)]) with 0.
    rewrite (steps_pushes_app _ _ _ P). split.
    - intros (_ & _ & m & M & X & <-). destruct (steps E lu _) as [m0|] eqn:M0; [|discriminate]. destruct (steps_pushes _ _ P (Machine [] [] [] (u ++ push_bytes redeem true)) m0 eq_refl M0) as (A & B & C & F).
      destruct m0 as [s0 a0 x0 c0]. cbn [m_main m_alt m_exec m_code] in A, B, C, F. subst a0 x0 c0. cbn [steps] in M. rewrite (step_push _ _ _ _ _ _ Lr) in M. destruct (stack_fits _) eqn:FF; [|discriminate]. injection M as <-. exists s0. split; [reflexivity|].
      split; [|rewrite fits1 in FF; apply Z.leb_le in FF; unfold MAX_STACK in FF; rewrite zlen_cons, zlen_nil in FF; lia].
      apply (executes_iff _ _ _ _ _ Ou Du). split; [unfold MAX_SCRIPT, MAX_ELEMENT in *; pose proof (zlen_nonneg redeem); lia|]. split; [rewrite (pushes_op_count _ P); unfold MAX_OPS; lia|].
      assert (forall l m m', Forall (fun c => exists d, snd c = Push d) l -> m_exec m = [] -> steps E l m = Some m' -> forall c, steps E l (Machine (m_main m) (m_alt m) (m_exec m) c) = Some (Machine (m_main m') (m_alt m') (m_exec m') c)) as CC.
      { clear. induction l as [|[bs i] l IH]; intros m m' P X S c; [cbn in *; injection S as <-; reflexivity|]. inversion P as [|? ? [d Hd] P']; subst. cbn [snd] in Hd. subst i. destruct m as [s a x c0]. cbn [m_main m_alt m_exec m_code] in *. subst x. cbn [steps step active m_exec forallb negb] in *.
        destruct (MAX_ELEMENT <? zlen d); [discriminate|]. destruct (hd 0 bs =? push_head d); [|discriminate]. rewrite fits1 in *. destruct (_ <=? MAX_STACK); [|discriminate]. exact (IH (Machine (d :: s) a [] c0) _ P' eq_refl S c). }
      eexists. split; [exact (CC lu (Machine [] [] [] (u ++ push_bytes redeem true)) _ P eq_refl M0 u)|]. split; reflexivity.
    - intros (s0 & -> & X & L). apply (executes_iff _ _ _ _ _ Ou Du) in X. destruct X as (_ & _ & m0 & M0 & X0 & <-).
      split; [exact LU|]. split; [unfold MAX_OPS; lia|].
      assert (forall l m m', Forall (fun c => exists d, snd c = Push d) l -> m_exec m = [] -> steps E l m = Some m' -> forall c, steps E l (Machine (m_main m) (m_alt m) (m_exec m) c) = Some (Machine (m_main m') (m_alt m') (m_exec m') c)) as CC.
      { clear. induction l as [|[bs i] l IH]; intros m m' P X S c; [cbn in *; injection S as <-; reflexivity|]. inversion P as [|? ? [d Hd] P']; subst. cbn [snd] in Hd. subst i. destruct m as [s a x c0]. cbn [m_main m_alt m_exec m_code] in *. subst x. cbn [steps step active m_exec forallb negb] in *.
        destruct (MAX_ELEMENT <? zlen d); [discriminate|]. destruct (hd 0 bs =? push_head d); [|discriminate]. rewrite fits1 in *. destruct (_ <=? MAX_STACK); [|discriminate]. exact (IH (Machine (d :: s) a [] c0) _ P' eq_refl S c). }
      pose proof (CC lu (Machine [] [] [] u) _ P eq_refl M0 (u ++ push_bytes redeem true)) as C1. cbn [m_main m_alt m_exec] in C1. rewrite C1. destruct (steps_pushes _ _ P (Machine [] [] [] u) _ eq_refl M0) as (A & B & C & F). cbn [m_main m_alt] in A, B. rewrite B, C. cbn [steps]. rewrite (step_push _ _ _ _ _ _ Lr). rewrite fits1.
      assert (zlen (redeem :: m_main m0) + zlen (@nil (list Z)) <=? MAX_STACK = true) as -> by (apply Z.leb_le; unfold MAX_STACK; rewrite zlen_cons, zlen_nil; lia). eexists. split; [reflexivity|]. split; reflexivity. }
  assert (forall r s s', executes E (locking_bytes P2SH h) (r :: s) s' <-> zlen s <= 998 /\ s' = bool_item (same (e_ripemd160 E (e_sha256 E r)) h) :: s) as EL.
  { intros r s s'. rewrite (executes_iff _ _ _ _ _ (locking_ok P2SH h Oh) DL). split.
    - intros (_ & _ & m & M & _ & <-). pose proof (p2sh_steps_big _ _ _ _ _ H20 M) as L. rewrite (p2sh_steps _ _ _ _ H20 L) in M. injection M as <-. auto.
    - intros (L & ->). rewrite (p2sh_steps _ _ _ _ H20 L). split; [now apply locking_len|]. split; [cbn; unfold MAX_OPS; lia|]. eexists. split; [reflexivity|]. split; reflexivity. }
  unfold spends_coin. split.
  - intros (P & s & s' & X & Y & Z). apply PO in P. apply (EU P) in X. destruct X as (s0 & -> & X & L0). apply EL in Y. destruct Y as (L & ->). destruct Z as [[N _]|(k & r & r0 & s'' & K & (v & r' & V & T) & R & Y & W)].
    + exfalso. apply (N h). split; [unfold zlen in H20; lia|reflexivity].
    + injection R as <- <-. injection V as <- <-. split; [|split; [exact P|]; exists s0, s''; auto].
      apply same_iff. destruct (same _ h); [reflexivity|discriminate T].
  - intros (A & P & s & s' & X & L & Y & W). split; [now apply PO|]. exists (redeem :: s), ([1] :: s). split; [apply (EU P); exists s; split; [reflexivity|]; split; [exact X|lia]|].
    split; [apply EL; split; [exact L|]; apply same_iff in A; rewrite A; reflexivity|]. right. exists h, redeem, s, s'. split; [split; [unfold zlen in H20; lia|reflexivity]|]. split; [exists [1], s; split; reflexivity|]. auto.
Qed.
