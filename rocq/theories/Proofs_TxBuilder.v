(** Lemmas about the transaction builder: money and leftover distribution. *)
From Coq Require Import Sorted Permutation.
From Verif Require Import Base BaseLemmas Model_ByteArray Model_Opcode Model_Script Model_Code Model_Address Model_Destination Model_Preimage
  Model_TxBuilder Spec_TxBuilder.
Local Open Scope Z_scope.

(** ** sums *)
Lemma u64_of_small r v : v < 2 ^ 64 -> u64_of r v = Ok v.
Proof. intros H. unfold u64_of. now rewrite (proj2 (Z.ltb_lt _ _) H). Qed.
Lemma u64_of_inv r v w : u64_of r v = Ok w -> w = v \/ (2 ^ 64 <= v /\ r = true /\ w = v mod 2 ^ 64).
Proof.
  unfold u64_of. destruct (v <? 2 ^ 64) eqn:E; [intros X; injection X as <-; auto|]. apply Z.ltb_ge in E.
  destruct r; [|discriminate]. intros X. injection X as <-. auto.
Qed.
Lemma sum_nonneg l : Forall (fun x => 0 <= x) l -> 0 <= sum l.
Proof. intros H. induction H; cbn [sum fold_right]; [lia|]. fold (sum l) in *. lia. Qed.
Lemma u64_sum_small r l : forall acc, Forall (fun x => 0 <= x) l -> acc + sum l < 2 ^ 64 -> u64_sum r acc l = Ok (acc + sum l).
Proof.
  induction l as [|x l IH]; intros acc H B; cbn [u64_sum sum fold_right] in *; [f_equal; lia|]. fold (sum l) in *.
  inversion H as [|? ? Hx Hl]; subst. pose proof (sum_nonneg l Hl). rewrite u64_of_small by lia. cbn [obind]. rewrite IH by (assumption || lia). f_equal. lia.
Qed.
(** a debug build never wraps *)
Lemma u64_sum_debug l : forall acc s, u64_sum false acc l = Ok s -> s = acc + sum l.
Proof.
  induction l as [|x l IH]; intros acc s E; cbn [u64_sum sum fold_right] in *; [injection E as <-; lia|]. fold (sum l).
  apply obind_ok in E. destruct E as (a & Ea & E). apply u64_of_inv in Ea. destruct Ea as [->|(_ & X & _)]; [|discriminate]. apply IH in E. lia.
Qed.
Lemma u64_sum_err r l : forall acc e, u64_sum r acc l <> Err e.
Proof.
  induction l as [|x l IH]; intros acc e; cbn [u64_sum]; [discriminate|]. unfold u64_of. destruct (_ <? _); [apply IH|]. destruct r; [apply IH|discriminate].
Qed.
Lemma known_total_sum outs : known_total outs = sum (map get_value outs).
Proof. induction outs as [|[o|lo up p s] outs IH]; cbn [known_total map sum fold_right get_value]; [reflexivity| |]; fold (sum (map get_value outs)); lia. Qed.

(** ** amounts as lists *)
Fixpoint values (m : amounts) (idx : nat) (outs : list builder_output) : list (option Z) :=
  match outs with
  | [] => []
  | KnownValue _ :: r => None :: values m (S idx) r
  | Leftover _ _ _ _ :: r => m idx :: values m (S idx) r
  end.
Lemma filled_values m outs : forall idx, filled outs (values m idx outs) (make_outputs_from m idx outs).
Proof. induction outs as [|[o|lo up p s] outs IH]; intros idx; cbn [values make_outputs_from]; [constructor|constructor; apply IH|]. destruct (m idx); constructor; apply IH. Qed.
Lemma filled_fun outs vs os : filled outs vs os -> forall os', filled outs vs os' -> os = os'.
Proof. intros H. induction H; intros os' H'; inversion H'; subst; f_equal; auto. Qed.
Lemma filled_total outs vs os : filled outs vs os -> output_total os = known_total outs + amount_sum vs.
Proof. intros H. induction H; unfold output_total in *; cbn [map sum fold_right known_total amount_sum out_value]; try (fold (sum (map out_value os))); lia. Qed.
Lemma values_length m outs : forall idx, length (values m idx outs) = length outs.
Proof. induction outs as [|[o|lo up p s] outs IH]; intros idx; cbn [values length]; [reflexivity| |]; now rewrite IH. Qed.
Lemma values_nth m outs : forall idx k, nth_error (values m idx outs) k =
  match nth_error outs k with Some (Leftover _ _ _ _) => Some (m (idx + k)%nat) | Some (KnownValue _) => Some None | None => None end.
Proof.
  induction outs as [|[o|lo up p s] outs IH]; intros idx [|k]; cbn [values nth_error]; try reflexivity.
  - rewrite IH. now replace (S idx + k)%nat with (idx + S k)%nat by lia.
  - now replace (idx + 0)%nat with idx by lia.
  - rewrite IH. now replace (S idx + k)%nat with (idx + S k)%nat by lia.
Qed.
Lemma values_ext m m' outs idx : (forall k lo up p s, nth_error outs k = Some (Leftover lo up p s) -> m (idx + k)%nat = m' (idx + k)%nat) -> values m idx outs = values m' idx outs.
Proof.
  revert idx. induction outs as [|o outs IH]; intros idx H; [reflexivity|].
  assert (values m (S idx) outs = values m' (S idx) outs) as E.
  { apply IH. intros k lo up p s Hk. replace (S idx + k)%nat with (idx + S k)%nat by lia. eapply H. cbn. exact Hk. }
  destruct o as [o|lo up p s]; cbn [values]; rewrite E; [reflexivity|]. f_equal. specialize (H O lo up p s eq_refl). now rewrite Nat.add_0_r in H.
Qed.
Lemma make_outputs_ext m m' outs idx : (forall k lo up p s, nth_error outs k = Some (Leftover lo up p s) -> m (idx + k)%nat = m' (idx + k)%nat) ->
  make_outputs_from m idx outs = make_outputs_from m' idx outs.
Proof. intros H. pose proof (filled_values m outs idx) as A. rewrite (values_ext m m' outs idx H) in A. eapply filled_fun; [exact A|apply filled_values]. Qed.
Lemma values_set m outs k v lo up p s : nth_error outs k = Some (Leftover lo up p s) -> values (set_amount m k v) 0 outs = upd (values m 0 outs) k v.
Proof.
  assert (forall outs idx k, nth_error outs k = Some (Leftover lo up p s) -> values (set_amount m (idx + k) v) idx outs = upd (values m idx outs) k v) as G.
  { clear outs k. induction outs as [|o outs IH]; intros idx [|k] H; try discriminate.
    - cbn [nth_error] in H. injection H as ->. cbn [values upd]. rewrite Nat.add_0_r. unfold set_amount at 1. rewrite Nat.eqb_refl. f_equal.
      apply values_ext. intros j lo' up' p' s' _. unfold set_amount. destruct (Nat.eqb_spec (S idx + j) idx); [lia|reflexivity].
    - cbn [nth_error] in H. replace (idx + S k)%nat with (S idx + k)%nat by lia. destruct o as [o|lo' up' p' s']; cbn [values upd].
      + f_equal. now apply IH.
      + rewrite (IH (S idx) k H). f_equal. unfold set_amount. destruct (Nat.eqb_spec idx (S idx + k)); [lia|reflexivity]. }
  intros H. exact (G outs O k H).
Qed.
Lemma amount_sum_upd vs : forall k v, nth_error vs k = Some None -> amount_sum (upd vs k (Some v)) = amount_sum vs + v.
Proof. induction vs as [|[x|] vs IH]; intros [|k] v H; cbn [nth_error upd amount_sum] in *; try discriminate; [rewrite IH by assumption; lia|lia|rewrite IH by assumption; lia]. Qed.
Lemma amount_sum_none outs m idx : (forall j, m j = None) -> amount_sum (values m idx outs) = 0.
Proof. intros H. revert idx. induction outs as [|[o|lo up p s] outs IH]; intros idx; cbn [values amount_sum]; [reflexivity|apply IH|]. rewrite H. apply IH. Qed.

(** ** the stable sort *)
Definition lex (x y : nat * Z) : Prop := snd x < snd y \/ (snd x = snd y /\ (fst x < fst y)%nat).
Lemma insert_stable_perm x l : Permutation (x :: l) (insert_stable x l).
Proof. induction l as [|y l IH]; cbn [insert_stable]; [reflexivity|]. destruct (snd x <=? snd y); [reflexivity|]. rewrite perm_swap. now rewrite <- IH. Qed.
Lemma sort_perm l : Permutation l (sort_stable l).
Proof. induction l as [|x l IH]; cbn; [reflexivity|]. rewrite <- insert_stable_perm. now rewrite <- IH. Qed.
Lemma insert_sorted x l : StronglySorted lex l -> Forall (fun y => (fst x < fst y)%nat) l -> StronglySorted lex (insert_stable x l).
Proof.
  intros H HF. induction H as [|y l Hl IH Hy]; cbn [insert_stable]; [repeat constructor|]. inversion HF as [|? ? Hx HF']; subst.
  destruct (snd x <=? snd y) eqn:E.
  - apply Z.leb_le in E. constructor; [constructor; assumption|]. constructor; [unfold lex; lia|].
    apply Forall_forall. intros z Hz. rewrite Forall_forall in Hy, HF'. specialize (Hy z Hz). specialize (HF' z Hz). unfold lex in *. lia.
  - apply Z.leb_gt in E. constructor; [now apply IH|]. apply (Permutation_Forall (insert_stable_perm x l)). constructor; [unfold lex; lia|assumption].
Qed.
Lemma leftovers_ge outs : forall idx, Forall (fun y => (idx <= fst y)%nat) (leftovers_from idx outs).
Proof.
  induction outs as [|[o|lo up p s] outs IH]; intros idx; cbn [leftovers_from]; [constructor| |constructor; [cbn; lia|]];
    (eapply Forall_impl; [|apply (IH (S idx))]; intros a Ha; cbn in *; lia).
Qed.
Lemma sort_sorted outs idx : StronglySorted lex (sort_stable (leftovers_from idx outs)).
Proof.
  revert idx. induction outs as [|[o|lo up p s] outs IH]; intros idx; cbn [leftovers_from sort_stable fold_right]; [constructor|apply IH|].
  apply insert_sorted; [apply IH|]. apply (Permutation_Forall (sort_perm _)). eapply Forall_impl; [|apply (leftovers_ge outs (S idx))]. intros a Ha. cbn in *. lia.
Qed.
Lemma leftovers_in outs : forall idx k p, In (k, p) (leftovers_from idx outs) <-> exists j lo up s, k = (idx + j)%nat /\ nth_error outs j = Some (Leftover lo up p s).
Proof.
  induction outs as [|o outs IH]; intros idx k p.
  - cbn. split; [tauto|]. intros (j & lo & up & s & _ & H). destruct j; discriminate.
  - destruct o as [o|lo0 up0 p0 s0]; cbn [leftovers_from]; [rewrite IH|cbn [In]; rewrite IH]; split.
    + intros (j & lo & up & s & -> & H). exists (S j), lo, up, s. split; [lia|exact H].
    + intros ([|j] & lo & up & s & -> & H); [discriminate|]. exists j, lo, up, s. split; [lia|exact H].
    + intros [E|(j & lo & up & s & -> & H)]; [injection E as -> ->; exists O, lo0, up0, s0; split; [lia|reflexivity]|exists (S j), lo, up, s; split; [lia|exact H]].
    + intros ([|j] & lo & up & s & -> & H); [left; injection H as -> -> -> ->; f_equal; lia|right; exists j, lo, up, s; split; [lia|exact H]].
Qed.
Lemma order_in outs k p : In (k, p) (sort_stable (leftovers_from 0 outs)) <-> exists lo up s, nth_error outs k = Some (Leftover lo up p s).
Proof.
  rewrite <- (Permutation_in' eq_refl (sort_perm (leftovers_from 0 outs))). rewrite leftovers_in. split.
  - intros (j & lo & up & s & -> & H). eauto.
  - intros (lo & up & s & H). exists k, lo, up, s. split; [lia|exact H].
Qed.
Lemma sorted_split pre x post : StronglySorted lex (pre ++ x :: post) -> Forall (fun y => lex y x) pre /\ Forall (lex x) post.
Proof.
  induction pre as [|y pre IH]; cbn [app]; intros H; inversion H as [|? ? Hs Hf]; subst; [split; [constructor|assumption]|].
  destruct (IH Hs) as [A B]. split; [|assumption]. constructor; [|assumption]. rewrite Forall_forall in Hf. apply Hf. apply in_or_app. right. now left.
Qed.

Lemma served_lex pj j pk k : served_before pj j pk k = true <-> lex (j, pj) (k, pk).
Proof. unfold served_before, lex. cbn [fst snd]. rewrite orb_true_iff, andb_true_iff, Z.ltb_lt, Z.eqb_eq, Nat.ltb_lt. tauto. Qed.

Lemma earlier_values m pk k l : forall idx, earlier pk k idx l (values m idx l) =
  values (fun j => match nth_error l (j - idx) with Some (Leftover _ _ pj _) => if served_before pj j pk k then m j else None | _ => None end) idx l.
Proof.
  induction l as [|o l IH]; intros idx; [reflexivity|].
  assert (forall f g, (forall j, f j = g j) -> values f (S idx) l = values g (S idx) l) as X by (intros f g H; apply values_ext; intros; apply H).
  destruct o as [o|lo up pj s]; cbn [earlier values]; rewrite IH.
  - f_equal. apply values_ext. intros j lo up p s Hj. replace (S idx + j - idx)%nat with (S j) by lia. replace (S idx + j - S idx)%nat with j by lia. reflexivity.
  - rewrite Nat.sub_diag. cbn [nth_error]. f_equal. apply values_ext. intros j lo' up' p s' Hj.
    replace (S idx + j - idx)%nat with (S j) by lia. replace (S idx + j - S idx)%nat with j by lia. reflexivity.
Qed.

Section B.
Context {sigs : Z -> Type}.
Notation tx_builder := (tx_builder sigs).
Notation unsigned_tx := (unsigned_tx sigs).

Lemma values_nonneg (b : tx_builder) : in_range b ->
  Forall (fun x => 0 <= x) (map get_value (b_outputs b)) /\ Forall (fun x => 0 <= x) (map (fun i => ui_value (bi_input i)) (b_inputs b)).
Proof.
  intros (Hi & Ho & _). split; apply Forall_map; [eapply Forall_impl; [|exact Ho]|eapply Forall_impl; [|exact Hi]].
  - intros [o|lo up p s] H; cbn [get_value]; [apply H|lia].
  - intros i H. apply H.
Qed.
Lemma sums_ok release (b : tx_builder) : in_range b -> totals_fit b ->
  known_output_sum release b = Ok (known_total (b_outputs b)) /\ input_sum release b = Ok (input_total b).
Proof.
  intros HR [HT HK]. destruct (values_nonneg b HR) as [A B]. unfold known_output_sum, input_sum, input_total in *. rewrite known_total_sum in *.
  split; rewrite u64_sum_small by (assumption || lia); reflexivity.
Qed.
Lemma sums_debug (b : tx_builder) k t : known_output_sum false b = Ok k -> input_sum false b = Ok t -> k = known_total (b_outputs b) /\ t = input_total b.
Proof.
  unfold known_output_sum, input_sum, input_total. rewrite known_total_sum. intros A B. apply u64_sum_debug in A. apply u64_sum_debug in B. split; lia.
Qed.

(** ** the distribution loop *)
Section Loop.
Variable release : bool.
Variable b : tx_builder.
Hypothesis HR : in_range b.
Notation outs := (b_outputs b).

Definition st_total (st : Z * amounts * option Z) : Z := fst (fst st).
Definition st_m (st : Z * amounts * option Z) : amounts := snd (fst st).
Definition st_est (st : Z * amounts * option Z) : option Z := snd st.

Lemma leftover_bounds k lo up p s : nth_error outs k = Some (Leftover lo up p s) -> u64_ok lo /\ u64_ok up.
Proof. intros H. destruct HR as (_ & Ho & _). rewrite Forall_forall in Ho. exact (Ho _ (nth_error_In _ _ H)). Qed.

(** what one iteration does *)
Definition fee_of (size : Z) : outcome Z := do p <- u64_of release (size * b_fee_per_kb b); Ok (p / 1000).
Lemma place_cases k lo up p s st st' : nth_error outs k = Some (Leftover lo up p s) -> 0 <= st_total st -> st_m st k = None -> place release b k lo up st = Ok st' ->
  (st_total st <= lo /\ st' = st) \/
  (lo < st_total st /\ exists size fee, estimate_size b (make_outputs b (set_amount (st_m st) k (Some (Z.min (st_total st) up)))) = Ok size /\
    fee_of size = Ok fee /\
    let amount := Z.min (st_total st - fee) up in
    ((lo < amount /\ st' = (st_total st - amount, set_amount (st_m st) k (Some amount), Some size)) \/
     (amount <= lo /\ exists m', st' = (st_total st, m', st_est st) /\ forall j, m' j = st_m st j))).
Proof.
  intros Hk Ht Hm E. destruct (leftover_bounds _ _ _ _ _ Hk) as [Hlo Hup]. unfold u64_ok in *.
  destruct st as [[total m] est]. cbn [st_total st_m st_est fst snd] in *. unfold place in E.
  assert (forall j, set_amount m k None j = m j) as Hn by (intros j; unfold set_amount; destruct (Nat.eqb_spec j k); congruence).
  destruct (total <=? lo) eqn:El; [injection E as <-; apply Z.leb_le in El; auto|]. apply Z.leb_gt in El. right. split; [exact El|].
  apply obind_ok in E. destruct E as (size & Es & E). apply obind_ok in E. destruct E as (pr & Ep & E).
  exists size, (pr / 1000). split; [exact Es|]. split; [unfold fee_of; now rewrite Ep|]. cbv zeta.
  destruct (pr / 1000 <=? total) eqn:Ef.
  - destruct (Z.min (total - pr / 1000) up <=? lo) eqn:Ea; injection E as <-.
    + apply Z.leb_le in Ea. right. split; [exact Ea|]. eexists. split; [reflexivity|exact Hn].
    + apply Z.leb_gt in Ea. left. split; [exact Ea|]. reflexivity.
  - injection E as <-. apply Z.leb_gt in Ef. right. split; [lia|]. eexists. split; [reflexivity|exact Hn].
Qed.

Lemma place_all_app l1 : forall l2 st st', place_all release b (l1 ++ l2) st = Ok st' ->
  exists st1, place_all release b l1 st = Ok st1 /\ place_all release b l2 st1 = Ok st'.
Proof.
  induction l1 as [|[k p] l1 IH]; intros l2 st st' E; cbn [app place_all] in *; [eauto|].
  destruct (nth_error outs k) as [[o|lo up p' s]|] eqn:En; [exact (IH _ _ _ E)| |discriminate].
  apply obind_ok in E. destruct E as (st0 & E0 & E). destruct (IH _ _ _ E) as (st1 & E1 & E2). exists st1. rewrite E0. cbn [obind]. auto.
Qed.

(** [total0] = what is there to distribute; [dn] the indices already treated *)
Variable total0 : Z.
Record inv (dn : list (nat * Z)) (st : Z * amounts * option Z) : Prop := Inv {
  inv_sum : st_total st + amount_sum (values (st_m st) 0 outs) = total0;
  inv_nonneg : 0 <= st_total st;
  inv_dom : forall k v, st_m st k = Some v -> exists lo up p s, nth_error outs k = Some (Leftover lo up p s) /\ lo < v <= up /\ In (k, p) dn;
  inv_est : match st_est st with
            | None => forall k, st_m st k = None
            | Some size => exists k lo up p s v fee, nth_error outs k = Some (Leftover lo up p s) /\ st_m st k = Some v /\
                (forall j w, st_m st j = Some w -> j = k \/ exists pj, In (j, pj) dn /\ lex (j, pj) (k, p)) /\
                fee_of size = Ok fee /\ fee <= st_total st /\ (v < up -> fee = st_total st)
            end }.

Lemma fee_nonneg size fee : 0 <= size -> fee_of size = Ok fee -> 0 <= fee.
Proof.
  intros Hs E. unfold fee_of in E. apply obind_ok in E. destruct E as (pr & Ep & E). injection E as <-. apply Z.div_pos; [|lia].
  destruct HR as (_ & _ & Hf). unfold u64_ok in Hf. apply u64_of_inv in Ep. destruct Ep as [->|(_ & _ & ->)]; [nia|]. apply Z.mod_pos_bound. lia.
Qed.
Lemma estimate_nonneg outputs size : estimate_size b outputs = Ok size -> 0 <= size.
Proof. intros E. unfold estimate_size in E. apply obind_ok in E. destruct E as (i & _ & E). apply obind_ok in E. destruct E as (s & _ & E). injection E as <-. apply zlen_nonneg. Qed.

Lemma inv_place dn k lo up p s st st' : inv dn st -> nth_error outs k = Some (Leftover lo up p s) -> Forall (fun y => lex y (k, p)) dn ->
  place release b k lo up st = Ok st' -> inv (dn ++ [(k, p)]) st'.
Proof.
  intros I Hk Hlex E. destruct (leftover_bounds _ _ _ _ _ Hk) as [Hlo Hup]. unfold u64_ok in *.
  assert (Hm : st_m st k = None).
  { destruct (st_m st k) as [v|] eqn:Em; [|reflexivity]. destruct (inv_dom _ _ I _ _ Em) as (lo' & up' & p' & s' & Hk' & _ & Hin).
    rewrite Hk in Hk'. injection Hk' as <- <- <- <-. rewrite Forall_forall in Hlex. specialize (Hlex _ Hin). unfold lex in Hlex. cbn in Hlex. lia. }
  assert (Weak : forall j v, st_m st j = Some v -> exists lo up p0 s, nth_error outs j = Some (Leftover lo up p0 s) /\ lo < v <= up /\ In (j, p0) (dn ++ [(k, p)])).
  { intros j v Hj. destruct (inv_dom _ _ I _ _ Hj) as (lo' & up' & p' & s' & A & B & C). exists lo', up', p', s'. split; [exact A|]. split; [exact B|]. apply in_or_app. now left. }
  assert (Same : forall st0, st_total st0 = st_total st -> (forall j, st_m st0 j = st_m st j) -> st_est st0 = st_est st -> inv (dn ++ [(k, p)]) st0).
  { intros st0 Et Em Ee. destruct I as [I1 I2 I3 I4]. constructor.
    - rewrite Et. rewrite (values_ext (st_m st0) (st_m st)); [exact I1|]. intros; apply Em.
    - now rewrite Et.
    - intros j v Hj. rewrite Em in Hj. now apply Weak.
    - rewrite Ee. destruct (st_est st) as [size|].
      + destruct I4 as (k0 & lo0 & up0 & p0 & s0 & v0 & fee0 & A & B & C & D & F & G). exists k0, lo0, up0, p0, s0, v0, fee0.
        split; [exact A|]. rewrite Em. split; [exact B|]. split; [|rewrite Et; auto].
        intros j w Hj. rewrite Em in Hj. destruct (C j w Hj) as [->|(pj & Hin & Hl)]; [auto|]. right. exists pj. split; [apply in_or_app; auto|exact Hl].
      + intros j. rewrite Em. apply I4. }
  destruct (place_cases _ _ _ _ _ _ _ Hk (inv_nonneg _ _ I) Hm E) as [(_ & ->)|(Hgt & size & fee & Es & Ef & [(Ha & ->)|(Ha & m' & -> & Hm')])].
  - apply Same; reflexivity || (intros; reflexivity).
  - pose proof (fee_nonneg _ _ (estimate_nonneg _ _ Es) Ef) as Hfee.
    set (amount := Z.min (st_total st - fee) up) in *. constructor; cbn [st_total st_m st_est fst snd].
    + rewrite (values_set _ _ _ _ _ _ _ _ Hk), amount_sum_upd; [pose proof (inv_sum _ _ I); lia|]. rewrite values_nth, Hk. cbn [Nat.add]. now rewrite Hm.
    + lia.
    + intros j v Hj. unfold set_amount in Hj. destruct (Nat.eqb_spec j k) as [->|Hne].
      * injection Hj as <-. exists lo, up, p, s. split; [exact Hk|]. split; [lia|]. apply in_or_app. right. now left.
      * now apply Weak.
    + exists k, lo, up, p, s, amount, fee. split; [exact Hk|]. split; [unfold set_amount; now rewrite Nat.eqb_refl|]. split; [|split; [exact Ef|split; lia]].
      intros j w Hj. unfold set_amount in Hj. destruct (Nat.eqb_spec j k) as [->|Hne]; [auto|]. right.
      destruct (inv_dom _ _ I _ _ Hj) as (lo' & up' & p' & s' & A & B & C). exists p'. split; [apply in_or_app; auto|]. rewrite Forall_forall in Hlex. now apply Hlex.
  - apply Same; cbn; auto.
Qed.

Lemma inv_place_all l : forall dn st st', inv dn st -> StronglySorted lex (dn ++ l) -> (forall k p, In (k, p) l -> exists lo up s, nth_error outs k = Some (Leftover lo up p s)) ->
  place_all release b l st = Ok st' -> inv (dn ++ l) st' /\ forall j, (forall p, ~ In (j, p) l) -> st_m st' j = st_m st j.
Proof.
  induction l as [|[k p] l IH]; intros dn st st' I HS HL E; cbn [place_all] in E.
  - injection E as <-. rewrite app_nil_r. auto.
  - destruct (HL k p (or_introl eq_refl)) as (lo & up & s & Hk). rewrite Hk in E. apply obind_ok in E. destruct E as (st0 & E0 & E).
    destruct (sorted_split _ _ _ HS) as [Hpre _]. pose proof (inv_place _ _ _ _ _ _ _ _ I Hk Hpre E0) as I0.
    replace (dn ++ (k, p) :: l) with ((dn ++ [(k, p)]) ++ l) in * by (now rewrite <- app_assoc).
    destruct (IH _ _ _ I0 HS (fun k0 p0 H => HL k0 p0 (or_intror H)) E) as [I' D]. split; [exact I'|].
    intros j Hj. rewrite D by (intros p0 H; apply (Hj p0); now right).
    assert (j <> k) as Hne by (intros ->; apply (Hj p); now left).
    assert (Hm : st_m st k = None).
    { destruct (st_m st k) as [v|] eqn:Em; [|reflexivity]. destruct (inv_dom _ _ I _ _ Em) as (lo' & up' & p' & s' & Hk' & _ & Hin).
      rewrite Hk in Hk'. injection Hk' as <- <- <- <-. rewrite Forall_forall in Hpre. specialize (Hpre _ Hin). unfold lex in Hpre. cbn in Hpre. lia. }
    destruct (place_cases _ _ _ _ _ _ _ Hk (inv_nonneg _ _ I) Hm E0) as [(_ & ->)|(Hgt & size & fee & Es & Ef & [(Ha & ->)|(Ha & m' & -> & Hm')])]; cbn [st_m snd fst].
    + reflexivity.
    + unfold set_amount. destruct (Nat.eqb_spec j k); congruence.
    + apply Hm'.
Qed.

Notation order := (sort_stable (leftovers_from 0 outs)).
Theorem distribution st' : 0 <= total0 -> place_all release b order (total0, no_amounts, None) = Ok st' ->
  inv order st' /\
  forall k lo up pk s, nth_error outs k = Some (Leftover lo up pk s) ->
    let vs := values (st_m st') 0 outs in
    let vs0 := earlier pk k 0 outs vs in
    let remaining := total0 - amount_sum vs0 in
    (remaining <= lo /\ nth_error vs k = Some None) \/
    (lo < remaining /\ exists os size fee, filled outs (upd vs0 k (Some (Z.min remaining up))) os /\ estimate_size b os = Ok size /\ fee_of size = Ok fee /\
       let amount := Z.min (remaining - fee) up in nth_error vs k = Some (if lo <? amount then Some amount else None)).
Proof.
  intros H0 E.
  assert (I0 : inv [] (total0, no_amounts, None)).
  { constructor; cbn [st_total st_m st_est fst snd]; [rewrite amount_sum_none by reflexivity; lia|lia|discriminate|reflexivity]. }
  assert (HL : forall k p, In (k, p) order -> exists lo up s, nth_error outs k = Some (Leftover lo up p s)) by (intros k p; apply order_in).
  split; [exact (proj1 (inv_place_all _ [] _ _ I0 (sort_sorted outs 0) HL E))|].
  intros k lo up pk s Hk vs vs0 remaining.
  assert (In (k, pk) order) as Hin by (apply order_in; eauto). apply in_split in Hin. destruct Hin as (pre & post & Ho).
  pose proof (sort_sorted outs 0) as HS. rewrite Ho in E, HS, HL. apply place_all_app in E. destruct E as (st1 & E1 & E).
  destruct (sorted_split _ _ _ HS) as [Hpre Hpost].
  assert (HSpre : StronglySorted lex pre).
  { clear - HS. induction pre as [|x pre IH]; [constructor|]. cbn [app] in HS. inversion HS as [|? ? A B]; subst. constructor; [auto|]. apply Forall_app in B. tauto. }
  destruct (inv_place_all pre [] _ _ I0 HSpre (fun k0 p0 H => HL k0 p0 (in_or_app _ _ _ (or_introl H))) E1) as [I1 D1]. cbn [app] in I1.
  cbn [place_all] in E. rewrite Hk in E. apply obind_ok in E. destruct E as (st2 & E2 & E3).
  pose proof (inv_place _ _ _ _ _ _ _ _ I1 Hk Hpre E2) as I2.
  assert (HS' : StronglySorted lex ((pre ++ [(k, pk)]) ++ post)) by (rewrite <- app_assoc; exact HS).
  destruct (inv_place_all post _ _ _ I2 HS' (fun k0 p0 H => HL k0 p0 (in_or_app pre ((k, pk) :: post) (k0, p0) (or_intror (or_intror H)))) E3) as [_ D3].
  assert (Hm : st_m st1 k = None).
  { destruct (st_m st1 k) as [v|] eqn:Em; [|reflexivity]. destruct (inv_dom _ _ I1 _ _ Em) as (lo' & up' & p' & s' & Hk' & _ & Hin).
    rewrite Hk in Hk'. injection Hk' as <- <- <- <-. rewrite Forall_forall in Hpre. specialize (Hpre _ Hin). unfold lex in Hpre. cbn in Hpre. lia. }
  assert (Hpost' : forall p, ~ In (k, p) post).
  { intros p Hp. destruct (HL k p (in_or_app pre ((k, pk) :: post) (k, p) (or_intror (or_intror Hp)))) as (lo' & up' & s' & Hk'). rewrite Hk in Hk'. injection Hk' as <- <- <- <-.
    rewrite Forall_forall in Hpost. specialize (Hpost _ Hp). unfold lex in Hpost. cbn in Hpost. lia. }
  pose proof (place_cases _ _ _ _ _ _ _ Hk (inv_nonneg _ _ I1) Hm E2) as C.
  assert (M2 : forall j, j <> k -> st_m st2 j = st_m st1 j).
  { intros j Hne. destruct C as [(_ & ->)|(Hgt & size & fee & Es & Ef & [(Ha & ->)|(Ha & m' & -> & Hm')])]; cbn [st_m fst snd]; [reflexivity| |apply Hm'].
    unfold set_amount. destruct (Nat.eqb_spec j k); congruence. }
  assert (V0 : vs0 = values (st_m st1) 0 outs).
  { unfold vs0, vs. rewrite earlier_values. apply values_ext. intros j lo' up' pj s' Hj. cbn [Nat.add]. rewrite Nat.sub_0_r, Hj.
    assert (In (j, pj) (pre ++ (k, pk) :: post)) as Hin by (rewrite <- Ho; apply order_in; eauto).
    destruct (served_before pj j pk k) eqn:Hsb.
    - apply served_lex in Hsb. apply in_app_or in Hin. destruct Hin as [Hin|Hin].
      + rewrite D3. 2:{ intros p Hp. destruct (HL j p (in_or_app pre ((k, pk) :: post) (j, p) (or_intror (or_intror Hp)))) as (lo2 & up2 & s2 & Hj2). rewrite Hj in Hj2. injection Hj2 as <- <- <- <-.
          rewrite Forall_forall in Hpost. specialize (Hpost _ Hp). unfold lex in *. cbn in *. lia. }
        apply M2. intros ->. unfold lex in Hsb. cbn in Hsb. rewrite Hk in Hj. injection Hj as <- <- <- <-. lia.
      + exfalso. destruct Hin as [X|Hp]; [injection X as -> ->; unfold lex in Hsb; cbn in Hsb; lia|].
        rewrite Forall_forall in Hpost. specialize (Hpost _ Hp). unfold lex in *. cbn in *. lia.
    - destruct (st_m st1 j) as [v|] eqn:Ej; [|reflexivity]. exfalso.
      destruct (inv_dom _ _ I1 _ _ Ej) as (lo2 & up2 & p2 & s2 & Hj2 & _ & Hin2). rewrite Hj in Hj2. injection Hj2 as <- <- <- <-.
      rewrite Forall_forall in Hpre. specialize (Hpre _ Hin2). apply served_lex in Hpre. congruence. }
  assert (R : remaining = st_total st1) by (unfold remaining; rewrite V0; pose proof (inv_sum _ _ I1); lia).
  assert (VK : nth_error vs k = Some (st_m st2 k)).
  { unfold vs. rewrite values_nth, Hk. cbn [Nat.add]. f_equal. now apply D3. }
  rewrite VK, R. destruct C as [(Hle & ->)|(Hgt & size & fee & Es & Ef & C)]; [left; split; [exact Hle|now rewrite Hm]|]. right. split; [exact Hgt|].
  exists (make_outputs b (set_amount (st_m st1) k (Some (Z.min (st_total st1) up)))), size, fee.
  split; [rewrite V0, <- (values_set _ _ _ _ _ _ _ _ Hk); apply filled_values|]. split; [exact Es|]. split; [exact Ef|]. cbv zeta in *.
  destruct C as [(Ha & ->)|(Ha & m' & -> & Hm')]; cbn [st_m fst snd].
  - rewrite (proj2 (Z.ltb_lt _ _) Ha). unfold set_amount. now rewrite Nat.eqb_refl.
  - rewrite (proj2 (Z.ltb_ge _ _) Ha). now rewrite Hm', Hm.
Qed.
End Loop.

(** ** build *)
Lemma build_inv sha release (b : tx_builder) u : build sha release b = Ok u -> in_range b -> (release = false \/ totals_fit b) ->
  let total0 := input_total b - known_total (b_outputs b) in
  0 <= total0 /\ exists st, place_all release b (sort_stable (leftovers_from 0 (b_outputs b))) (total0, no_amounts, None) = Ok st /\
    u_builder u = b /\ u_outputs u = make_outputs b (st_m st) /\ u_inputs u = map presigned (b_inputs b) /\
    build_preimages sha (builder_sig_tx b (u_outputs u)) = Ok (u_preimages u) /\
    match st_est st with Some s => u_estimated_size u = s | None => estimate_size b (u_outputs u) = Ok (u_estimated_size u) end.
Proof.
  intros E HR HT total0. unfold build in E.
  apply obind_ok in E. destruct E as (known & Ek & E). apply obind_ok in E. destruct E as (total & Et & E).
  assert (known = known_total (b_outputs b) /\ total = input_total b) as [-> ->].
  { destruct HT as [->|HT]; [now apply sums_debug|]. destruct (sums_ok release b HR HT) as [A B]. split; congruence. }
  destruct (_ <? _) eqn:El; [discriminate|]. apply Z.ltb_ge in El. split; [unfold total0; lia|]. fold total0 in E.
  apply obind_ok in E. destruct E as ([[tm m] est] & Ep & E). exists (tm, m, est). split; [exact Ep|].
  apply obind_ok in E. destruct E as (size & Es & E). apply obind_ok in E. destruct E as (pre & Epre & E). injection E as <-.
  cbn [u_builder u_outputs u_inputs u_preimages u_estimated_size st_m st_est fst snd]. repeat (split; [reflexivity || exact Epre|]).
  destruct est; [injection Es as <-; reflexivity|exact Es].
Qed.
End B.
