(** Any at most four substituted symbols among up to 43 are detected by the checksum. *)
From Verif Require Import Base BaseLemmas Model_Address Spec_Address Proofs_Address.
From Coq Require Import ZifyBool ZifyNat MSetPositive Btauto.
Local Open Scope Z_scope.

Fixpoint syn (r : list Z) : Z := match r with [] => 0 | x :: t => Z.lxor x (L (syn t)) end.
Definition is0 (x : Z) : nat := if x =? 0 then 0%nat else 1%nat.
Fixpoint weight (r : list Z) : nat := match r with [] => 0%nat | x :: t => (is0 x + weight t)%nat end.

Lemma fold_syn d : fold_left register d 0 = syn (rev d).
Proof.
  rewrite <- (rev_involutive d) at 1. induction (rev d) as [|x t IH]; [reflexivity|]. cbn [rev]. rewrite fold_left_app. cbn [fold_left syn]. rewrite IH.
  rewrite register_L. apply Z.lxor_comm.
Qed.
Lemma L0 : L 0 = 0. Proof. reflexivity. Qed.
Lemma Lpow0 n : Lpow n 0 = 0.
Proof. induction n; [reflexivity|]. cbn [Lpow]. now rewrite L0. Qed.
Lemma Lpow_L n : forall c, Lpow n (L c) = L (Lpow n c).
Proof. induction n as [|n IH]; intros c; [reflexivity|]. cbn [Lpow]. apply IH. Qed.
Lemma syn_range r : Forall (sym_ok 5) r -> 0 <= syn r < 2 ^ 40.
Proof.
  induction 1 as [|x t Hx _ IH]; [cbn; lia|]. cbn [syn]. apply lxor_range; [lia| |apply L_range]. unfold sym_ok in Hx. change (2 ^ Z.of_nat 5) with 32 in Hx. lia.
Qed.

(** Sums of at most [n] symbols at increasing positions from [lo] below [hi]. *)
Fixpoint sums (n lo hi : nat) (v : Z) : Prop :=
  match n with
  | O => v = 0
  | S k => v = 0 \/ exists i e w, (lo <= i < hi)%nat /\ 0 <= e < 32 /\ sums k (S i) hi w /\ v = Z.lxor (Lpow i e) w
  end.
Lemma sums_repr t : Forall (sym_ok 5) t -> forall n lo hi, (weight t <= n)%nat -> (lo + length t <= hi)%nat -> sums n lo hi (Lpow lo (syn t)).
Proof.
  induction 1 as [|x t Hx _ IH]; intros n lo hi Hw Hl.
  - cbn [syn]. rewrite Lpow0. destruct n; cbn; auto.
  - cbn [syn weight length] in *. rewrite Lpow_lin. unfold is0 in Hw. destruct (Z.eqb_spec x 0) as [->|Hn].
    + rewrite Lpow0, Z.lxor_0_l. change (Lpow lo (L (syn t))) with (Lpow (S lo) (syn t)).
      specialize (IH n (S lo) hi ltac:(lia) ltac:(lia)). destruct n as [|n]; [exact IH|]. cbn [sums] in *. destruct IH as [IH|(i & e & w & H1 & H2 & H3 & H4)]; [auto|].
      right. exists i, e, w. split; [lia|auto].
    + destruct n as [|n]; [lia|]. cbn [sums]. right. exists lo, x, (Lpow (S lo) (syn t)). unfold sym_ok in Hx. change (2 ^ Z.of_nat 5) with 32 in Hx.
      split; [lia|]. split; [lia|]. split; [apply IH; lia|reflexivity].
Qed.

(* ---------- the sweep ---------- *)
Fixpoint rows (n : nat) (row : list Z) : list (list Z) := match n with O => [] | S k => row :: rows k (map L row) end.
Lemma rows_nth n : forall row i, (i < n)%nat -> nth_error (rows n row) i = Some (map (Lpow i) row).
Proof.
  induction n as [|n IH]; intros row i Hi; [lia|]. destruct i as [|i]; cbn [rows nth_error]; [cbn; now rewrite map_id|].
  rewrite IH by lia. rewrite map_map. reflexivity.
Qed.
Definition tab : list (list Z) := rows 43 sym_range.
Definition key (v : Z) : positive := Z.to_pos (v + 2 ^ 40).
Definition nz_syms : list Z := map Z.of_nat (seq 1 31).
Definition setA (t : list (list Z)) : PositiveSet.t :=
  fold_left (fun s row => fold_left (fun s a => fold_left (fun s x => PositiveSet.add (key (Z.lxor x a)) s) nz_syms s) row s) (tl t) PositiveSet.empty.
Fixpoint pairs_avoid (s : PositiveSet.t) (t : list (list Z)) : bool :=
  match t with
  | [] => true
  | r :: rest => let out v := negb (PositiveSet.mem (key v) s) in
    out (nth 1 r 0) && forallb (fun r2 => let b := nth 1 r2 0 in forallb (fun a => out (Z.lxor a b)) r) rest && pairs_avoid s rest
  end.
Lemma sweep : (let t := tab in let s := setA t in negb (PositiveSet.mem (key 0) s) && pairs_avoid s (tl t)) = true.
Proof. vm_compute. reflexivity. Qed.

Definition inA (v : Z) : Prop := exists x i e, 0 < x < 32 /\ (1 <= i < 43)%nat /\ 0 <= e < 32 /\ v = Z.lxor x (Lpow i e).
Lemma setA_complete v : inA v -> PositiveSet.mem (key v) (setA tab) = true.
Proof.
  intros (x & i & e & Hx & Hi & He & ->). apply PositiveSet.mem_spec. unfold setA.
  assert (forall (l : list (list Z)) s, PositiveSet.In (key (Z.lxor x (Lpow i e))) s ->
     PositiveSet.In (key (Z.lxor x (Lpow i e))) (fold_left (fun s row => fold_left (fun s a => fold_left (fun s x => PositiveSet.add (key (Z.lxor x a)) s) nz_syms s) row s) l s)) as K3.
  { induction l as [|r l IH]; intros s Hs; [assumption|]. cbn [fold_left]. apply IH. clear IH. revert s Hs. induction r as [|a r IH]; intros s Hs; [assumption|].
    cbn [fold_left]. apply IH. clear IH. revert s Hs. induction nz_syms as [|y l2 IH]; intros s Hs; [assumption|]. cbn [fold_left]. apply IH. apply PositiveSet.add_spec. now right. }
  assert (nth_error (tl tab) (i - 1) = Some (map (Lpow i) sym_range)) as Hr.
  { change (tl tab) with (rows 42 (map L sym_range)). rewrite rows_nth by lia. rewrite map_map. f_equal. apply map_ext. intros c. change (Lpow (i - 1) (L c)) with (Lpow (S (i - 1)) c). f_equal. lia. }
  apply nth_error_split in Hr. destruct Hr as (l1 & l2 & -> & _). rewrite fold_left_app. cbn [fold_left]. apply K3. clear K3.
  assert (In (Lpow i e) (map (Lpow i) sym_range)) as Hin by (apply in_map, sym_in; lia).
  apply in_split in Hin. destruct Hin as (r1 & r2 & ->). rewrite fold_left_app. cbn [fold_left].
  assert (forall (r : list Z) s, PositiveSet.In (key (Z.lxor x (Lpow i e))) s ->
     PositiveSet.In (key (Z.lxor x (Lpow i e))) (fold_left (fun s a => fold_left (fun s x => PositiveSet.add (key (Z.lxor x a)) s) nz_syms s) r s)) as K2.
  { induction r as [|a r IH]; intros s Hs; [assumption|]. cbn [fold_left]. apply IH. clear IH. revert s Hs. induction nz_syms as [|y l3 IH]; intros s Hs; [assumption|]. cbn [fold_left]. apply IH. apply PositiveSet.add_spec. now right. }
  apply K2. clear K2.
  assert (In x nz_syms) as Hx2 by (unfold nz_syms; apply in_map_iff; exists (Z.to_nat x); split; [lia|apply in_seq; lia]).
  apply in_split in Hx2. destruct Hx2 as (x1 & x2 & ->). rewrite fold_left_app. cbn [fold_left].
  match goal with |- PositiveSet.In _ (fold_left _ _ ?s0) => assert (PositiveSet.In (key (Z.lxor x (Lpow i e))) s0) as H0 by (apply PositiveSet.add_spec; now left); revert H0; generalize s0 end.
  induction x2 as [|y l3 IH]; intros s Hs; [assumption|]. cbn [fold_left]. apply IH. apply PositiveSet.add_spec. now right.
Qed.
Lemma pairs_avoid_sound s t : pairs_avoid s t = true -> forall j r, nth_error t j = Some r ->
  PositiveSet.mem (key (nth 1 r 0)) s = false /\
  forall k r2 a, (j < k)%nat -> nth_error t k = Some r2 -> In a r -> PositiveSet.mem (key (Z.lxor a (nth 1 r2 0))) s = false.
Proof.
  induction t as [|r0 t IH]; intros H j r Hj; [destruct j; discriminate|]. cbn [pairs_avoid] in H. rewrite !andb_true_iff in H. destruct H as [[H1 H2] H3].
  destruct j as [|j].
  - injection Hj as ->. split; [now apply negb_true_iff|]. intros k r2 a Hk Hk2 Ha. destruct k as [|k]; [lia|]. cbn [nth_error] in Hk2. apply nth_error_In in Hk2.
    rewrite forallb_forall in H2. specialize (H2 _ Hk2). cbv zeta in H2. rewrite forallb_forall in H2. apply negb_true_iff. now apply H2.
  - destruct (IH H3 j r Hj) as [I1 I2]. split; [assumption|]. intros k r2 a Hk Hk2 Ha. destruct k as [|k]; [lia|]. apply (I2 k r2 a); auto. lia.
Qed.
Lemma tl_tab_nth i : (1 <= i < 43)%nat -> nth_error (tl tab) (i - 1) = Some (map (Lpow i) sym_range).
Proof.
  intros Hi. change (tl tab) with (rows 42 (map L sym_range)). rewrite rows_nth by lia. rewrite map_map. f_equal. apply map_ext. intros c. change (Lpow (i - 1) (L c)) with (Lpow (S (i - 1)) c). f_equal. lia.
Qed.
Lemma nth1_row i : nth 1 (map (Lpow i) sym_range) 0 = Lpow i 1.
Proof. reflexivity. Qed.
Lemma inA_not v : inA v -> v <> 0 /\ (forall j, (1 <= j < 43)%nat -> v <> Lpow j 1) /\
  (forall j k e, (1 <= j < k)%nat -> (k < 43)%nat -> 0 <= e < 32 -> v <> Z.lxor (Lpow j e) (Lpow k 1)).
Proof.
  intros Hv. apply setA_complete in Hv. pose proof sweep as Hs. cbv zeta in Hs. revert Hv Hs. generalize (setA tab) as S. intros S Hv Hs. apply andb_true_iff in Hs. destruct Hs as [S0 S1]. apply negb_true_iff in S0.
  split; [intros ->; congruence|]. split.
  - intros j Hj ->. destruct (pairs_avoid_sound _ _ S1 (j - 1) _ (tl_tab_nth j ltac:(lia))) as [H _]. rewrite nth1_row in H. congruence.
  - intros j k e Hj Hk He ->. destruct (pairs_avoid_sound _ _ S1 (j - 1) _ (tl_tab_nth j ltac:(lia))) as [_ H].
    specialize (H (k - 1)%nat _ (Lpow j e) ltac:(lia) (tl_tab_nth k ltac:(lia))). rewrite nth1_row in H. assert (In (Lpow j e) (map (Lpow j) sym_range)) as Hin by (apply in_map, sym_in; lia). specialize (H Hin). congruence.
Qed.

(* ---------- scaling every symbol by the field element x ---------- *)
Definition Mx (c : Z) : Z :=
  let t := Z.land (Z.shiftr c 4) 0x0842108421 in
  Z.lxor (Z.shiftl (Z.land c 0x7bdef7bdef) 1) (Z.lxor t (Z.shiftl t 3)).
Lemma land_lxor a b m : Z.land (Z.lxor a b) m = Z.lxor (Z.land a m) (Z.land b m).
Proof. apply Z.bits_inj'. intros i Hi. rewrite !Z.land_spec, !Z.lxor_spec, !Z.land_spec. btauto. Qed.
Lemma Mx_lin a b : Mx (Z.lxor a b) = Z.lxor (Mx a) (Mx b).
Proof.
  unfold Mx. cbv zeta. rewrite Z.shiftr_lxor, !land_lxor, !Z.shiftl_lxor. apply Z.bits_inj'. intros i Hi. rewrite !Z.lxor_spec. btauto.
Qed.
Lemma linear_ext (f g : Z -> Z) (n : nat) :
  (forall a b, f (Z.lxor a b) = Z.lxor (f a) (f b)) -> (forall a b, g (Z.lxor a b) = Z.lxor (g a) (g b)) -> f 0 = g 0 ->
  forallb (fun i => f (2 ^ Z.of_nat i) =? g (2 ^ Z.of_nat i)) (seq 0 n) = true -> forall c, 0 <= c < 2 ^ Z.of_nat n -> f c = g c.
Proof.
  intros Hf Hg H0 Hb. rewrite forallb_forall in Hb. 
  assert (forall m, (m <= n)%nat -> forall c, 0 <= c < 2 ^ Z.of_nat m -> f c = g c) as K; [|intros; eapply K; eauto].
  induction m as [|m IH]; intros Hm c Hc; [assert (c = 0) as -> by (cbn in Hc; lia); assumption|].
  rewrite Nat2Z.inj_succ, Z.pow_succ_r in Hc by lia. destruct (Z.lt_ge_cases c (2 ^ Z.of_nat m)) as [Hlt|Hge]; [apply IH; lia|].
  assert (c = Z.lxor (c - 2 ^ Z.of_nat m) (2 ^ Z.of_nat m)) as ->.
  { assert (Z.land (c - 2 ^ Z.of_nat m) (2 ^ Z.of_nat m) = 0) as E.
    { apply Z.bits_inj'. intros i Hi. rewrite Z.land_spec, Z.bits_0. destruct (Z.eq_dec i (Z.of_nat m)) as [->|].
      - rewrite (testbit_high _ (Z.of_nat m)) by lia. reflexivity.
      - rewrite Z.pow2_bits_false by lia. apply andb_false_r. }
    rewrite <- Z.add_nocarry_lxor by assumption. lia. }
  rewrite Hf, Hg, IH by lia. f_equal. apply Z.eqb_eq. apply Hb. apply in_seq. lia.
Qed.
Lemma Mx_L c : 0 <= c < 2 ^ 40 -> Mx (L c) = L (Mx c).
Proof.
  apply (linear_ext (fun c => Mx (L c)) (fun c => L (Mx c)) 40).
  - intros. now rewrite L_lin, Mx_lin.
  - intros. now rewrite Mx_lin, L_lin.
  - reflexivity.
  - vm_compute. reflexivity.
Qed.
Lemma Mx_Lpow i : forall c, 0 <= c < 2 ^ 40 -> Mx (Lpow i c) = Lpow i (Mx c).
Proof. induction i as [|i IH]; intros c Hc; [reflexivity|]. cbn [Lpow]. rewrite IH by apply L_range. now rewrite Mx_L. Qed.
Fixpoint Mpow (k : nat) (c : Z) : Z := match k with O => c | S n => Mpow n (Mx c) end.
Lemma Mx_sym e : 0 <= e < 32 -> 0 <= Mx e < 32 /\ (e <> 0 -> Mx e <> 0).
Proof.
  intros He. assert (forallb (fun e => (0 <=? Mx e) && (Mx e <? 32) && ((e =? 0) || negb (Mx e =? 0))) sym_range = true) as H by (vm_compute; reflexivity).
  pose proof (sym_sweep _ H e He) as H2. cbv beta in H2. lia.
Qed.
Lemma Mpow_sym k : forall e, 0 <= e < 32 -> 0 <= Mpow k e < 32 /\ (e <> 0 -> Mpow k e <> 0).
Proof. induction k as [|k IH]; intros e He; cbn [Mpow]; [tauto|]. destruct (Mx_sym e He) as [H1 H2]. destruct (IH (Mx e) H1). tauto. Qed.
Lemma Mpow_lin k : forall a b, Mpow k (Z.lxor a b) = Z.lxor (Mpow k a) (Mpow k b).
Proof. induction k as [|k IH]; intros a b; cbn [Mpow]; [reflexivity|]. now rewrite Mx_lin, IH. Qed.
Lemma Mpow_Lpow k : forall i e, 0 <= e < 32 -> Mpow k (Lpow i e) = Lpow i (Mpow k e).
Proof.
  induction k as [|k IH]; intros i e He; cbn [Mpow]; [reflexivity|]. rewrite Mx_Lpow by lia. apply IH. now apply Mx_sym.
Qed.
Lemma Mpow_unit e : 0 < e < 32 -> exists k, Mpow k e = 1.
Proof.
  intros He. assert (forallb (fun e => (e =? 0) || existsb (fun k => Mpow k e =? 1) (seq 0 31)) sym_range = true) as H by (vm_compute; reflexivity).
  pose proof (sym_sweep _ H e ltac:(lia)) as H2. cbv beta in H2. destruct (Z.eqb_spec e 0); [lia|]. apply existsb_exists in H2. destruct H2 as (k & _ & Hk). exists k. lia.
Qed.

Lemma inA_scale k v : inA v -> inA (Mpow k v).
Proof.
  intros (x & i & e & Hx & Hi & He & ->). rewrite Mpow_lin, Mpow_Lpow by assumption. destruct (Mpow_sym k x ltac:(lia)) as [A1 A2].
  exists (Mpow k x), i, (Mpow k e). split; [lia|]. split; [assumption|]. split; [apply Mpow_sym; assumption|reflexivity].
Qed.
Lemma inA_not2 v j e : inA v -> (1 <= j < 43)%nat -> 0 <= e < 32 -> v <> Lpow j e.
Proof.
  intros Hv Hj He Hc. destruct (Z.eq_dec e 0) as [->|Hn]; [rewrite Lpow0 in Hc; apply inA_not in Hv; tauto|].
  destruct (Mpow_unit e ltac:(lia)) as (m & Hm). apply (f_equal (Mpow m)) in Hc. rewrite Mpow_Lpow, Hm in Hc by assumption.
  apply (inA_scale m) in Hv. apply inA_not in Hv. destruct Hv as (_ & H & _). exact (H j Hj Hc).
Qed.
Lemma inA_not3 v j k e d : inA v -> (1 <= j < k)%nat -> (k < 43)%nat -> 0 <= e < 32 -> 0 <= d < 32 -> v <> Z.lxor (Lpow j e) (Lpow k d).
Proof.
  intros Hv Hj Hk He Hd Hc. destruct (Z.eq_dec d 0) as [->|Hn].
  - rewrite Lpow0, Z.lxor_0_r in Hc. eapply inA_not2; [exact Hv| | |exact Hc]; lia.
  - destruct (Mpow_unit d ltac:(lia)) as (m & Hm). apply (f_equal (Mpow m)) in Hc. rewrite Mpow_lin, !Mpow_Lpow, Hm in Hc by assumption.
    apply (inA_scale m) in Hv. apply inA_not in Hv. destruct Hv as (_ & _ & H). apply (H j k (Mpow m e) Hj Hk); [apply Mpow_sym; assumption|assumption].
Qed.

Lemma weight0 r : weight r = 0%nat -> Forall (fun x => x = 0) r.
Proof. induction r as [|x r IH]; cbn [weight]; intros H; [constructor|]. unfold is0 in H. destruct (Z.eqb_spec x 0); [|lia]. constructor; [assumption|apply IH; lia]. Qed.
Lemma lxor_move a b c : Z.lxor a (Z.lxor b c) = 0 -> Z.lxor a b = c.
Proof. rewrite <- Z.lxor_assoc. apply Z.lxor_eq. Qed.

Lemma syn_dist r : Forall (sym_ok 5) r -> (length r <= 43)%nat -> (weight r <= 4)%nat -> syn r = 0 -> Forall (fun x => x = 0) r.
Proof.
  induction 1 as [|x t Hx Ht IH]; intros Hl Hw Hs; [constructor|]. cbn [length weight syn] in *. unfold is0 in Hw. destruct (Z.eqb_spec x 0) as [->|Hn].
  - rewrite Z.lxor_0_l in Hs. apply L_inj0 in Hs; [|now apply syn_range]. constructor; [reflexivity|]. apply IH; auto; lia.
  - exfalso. unfold sym_ok in Hx. change (2 ^ Z.of_nat 5) with 32 in Hx.
    pose proof (sums_repr t Ht 3 1 43 ltac:(lia) ltac:(lia)) as H. change (Lpow 1 (syn t)) with (L (syn t)) in H.
    assert (forall i e, (1 <= i < 43)%nat -> 0 <= e < 32 -> inA (Z.lxor x (Lpow i e))) as HA.
    { intros i e Hi He. exists x, i, e. split; [lia|auto]. }
    assert (inA x) as HA0. { rewrite <- (Z.lxor_0_r x), <- (Lpow0 1). apply HA; lia. }
    cbn [sums] in H. destruct H as [H|(i & e & w & Hi & He & H & Ev)].
    { rewrite H, Z.lxor_0_r in Hs. congruence. }
    rewrite Ev in Hs. apply lxor_move in Hs. specialize (HA i e Hi He). destruct H as [->|(j & d & w2 & Hj & Hd & H & ->)].
    { apply inA_not in HA. tauto. }
    destruct H as [->|(k & f & w3 & Hk & Hf & -> & ->)].
    { rewrite Z.lxor_0_r in Hs. eapply inA_not2; [exact HA| | |exact Hs]; lia. }
    rewrite Z.lxor_0_r in Hs. eapply inA_not3; [exact HA| | | | |exact Hs]; lia.
Qed.

(* ---------- two symbol strings with the same remainder ---------- *)
Fixpoint diff (a b : list Z) : list Z := match a, b with x :: a, y :: b => Z.lxor x y :: diff a b | _, _ => [] end.
(** Number of positions in which two strings of the same length differ. *)
Lemma fold_diff a : forall b c d, length a = length b ->
  Z.lxor (fold_left register a c) (fold_left register b d) = fold_left register (diff a b) (Z.lxor c d).
Proof.
  induction a as [|x a IH]; intros [|y b] c d Hl; try discriminate; [reflexivity|]. cbn [fold_left diff]. rewrite IH by (cbn in Hl; congruence).
  f_equal. rewrite !register_L, L_lin. apply Z.bits_inj'. intros i Hi. rewrite !Z.lxor_spec. btauto.
Qed.
Lemma diff_ok a : forall b, Forall (sym_ok 5) a -> Forall (sym_ok 5) b -> Forall (sym_ok 5) (diff a b).
Proof.
  induction a as [|x a IH]; intros [|y b] Ha Hb; cbn [diff]; try constructor; inversion Ha; inversion Hb; subst; [|auto].
  unfold sym_ok in *. apply lxor_range; auto. lia.
Qed.
Lemma diff0 a : forall b, length a = length b -> Forall (fun x => x = 0) (diff a b) -> a = b.
Proof.
  induction a as [|x a IH]; intros [|y b] Hl H; try discriminate; [reflexivity|]. cbn [diff] in H. inversion H as [|? ? E H']; subst.
  apply Z.lxor_eq in E. subst. f_equal. apply IH; auto.
Qed.
Lemma weight_app a b : weight (a ++ b) = (weight a + weight b)%nat.
Proof. induction a; cbn [weight app]; lia. Qed.
Lemma weight_rev r : weight (rev r) = weight r.
Proof. induction r as [|x r IH]; [reflexivity|]. cbn [rev weight]. rewrite weight_app, IH. cbn [weight]. lia. Qed.
Lemma diff_length a : forall b, length a = length b -> length (diff a b) = length a.
Proof. induction a as [|x a IH]; intros [|y b] H; cbn in *; auto; discriminate. Qed.
Lemma remainder_dist p a b : Forall (sym_ok 5) a -> Forall (sym_ok 5) b -> length a = length b -> (length a <= 43)%nat -> (weight (diff a b) <= 4)%nat ->
  remainder p a = remainder p b -> a = b.
Proof.
  intros Ha Hb Hl H43 Hw H. apply diff0; [assumption|]. unfold remainder in H. rewrite !app_assoc, !(fold_left_app register (_ ++ [0])) in H.
  set (c := fold_left register _ 1) in H. apply (f_equal (Z.lxor (fold_left register a c))) in H. rewrite Z.lxor_nilpotent, fold_diff, Z.lxor_nilpotent, fold_syn in H by assumption.
  rewrite <- (rev_involutive (diff a b)). apply Forall_rev. apply syn_dist.
  - apply Forall_rev, diff_ok; assumption.
  - rewrite rev_length, diff_length by assumption. assumption.
  - now rewrite weight_rev.
  - now symmetry.
Qed.
