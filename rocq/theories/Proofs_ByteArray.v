From Verif Require Import Base BaseLemmas Model_ByteArray Spec_ByteArray.
From Coq Require Import ZifyBool ZifyNat.
Local Open Scope Z_scope.
Local Open Scope list_scope.

(** Induction principle for the nested tree. *)
Section BarrayInd.
  Variable P : barray -> Prop.
  Hypothesis Hleaf : forall d n f, P (BA d n f None).
  Hypothesis Hnode : forall d n f ps, Forall P ps -> P (BA d n f (Some ps)).
  Fixpoint barray_ind' (a : barray) : P a :=
    match a with
    | BA d n f None => Hleaf d n f
    | BA d n f (Some ps) =>
        Hnode d n f ps
          ((fix go (l : list barray) : Forall P l :=
              match l with
              | [] => Forall_nil P
              | x :: t => Forall_cons x (barray_ind' x) (go t)
              end) ps)
    end.
End BarrayInd.

Lemma func_eqb_spec a b : func_eqb a b = true <-> a = b.
Proof. unfold func_eqb. destruct (func_eq_dec a b); split; congruence. Qed.

Lemma bytes_eqb_spec a b : bytes_eqb a b = true <-> a = b.
Proof.
  revert b; induction a as [|x a IH]; intros [|y b]; cbn [bytes_eqb]; split; try discriminate; try reflexivity.
  - intros H. apply andb_prop in H. destruct H as [H1 H2]. apply IH in H2. apply Z.eqb_eq in H1. congruence.
  - intros H. injection H as -> ->. rewrite Z.eqb_refl. cbn. now apply IH.
Qed.

Lemma ba_eqb_spec a b : ba_eqb a b = true <-> ba_data a = ba_data b.
Proof. apply bytes_eqb_spec. Qed.

Lemma concat_named_data a b n : ba_data (ba_concat_named a b n) = ba_data a ++ ba_data b.
Proof. unfold ba_concat_named. destruct (_ && _); reflexivity. Qed.
Lemma concat_data a b : ba_data (ba_concat a b) = ba_data a ++ ba_data b.
Proof. apply concat_named_data. Qed.

(** The loop of [split] as a separate definition, for reasoning. *)
Definition split_loop (at_ : Z) := fix loop (ps : list barray) (is_left : bool) (len : Z) (lp rp : list barray)
  : outcome (list barray * list barray) :=
  match ps with
  | [] => Ok (lp, rp)
  | part :: rest =>
    let part_len := ba_len part in
    let is_left := if len =? at_ then false else is_left in
    if (at_ <? len + part_len) && is_left then
      do sub_at <- usize_sub at_ len;
      do (sub_left, sub_right) <- ba_split part sub_at;
      let keep := should_keep_intact (ba_function part) in
      let sub_left := if keep then ba_set_function sub_left FUnexpectedSplit else sub_left in
      let sub_right := if keep then ba_set_function sub_right FUnexpectedSplit else sub_right in
      loop rest false (len + part_len) (lp ++ [sub_left]) (rp ++ [sub_right])
    else if is_left then loop rest is_left (len + part_len) (lp ++ [part]) rp
    else loop rest is_left (len + part_len) lp (rp ++ [part])
  end.

Lemma split_loop_nil at_ is_left len lp rp : split_loop at_ [] is_left len lp rp = Ok (lp, rp).
Proof. reflexivity. Qed.
Lemma split_loop_cons at_ part rest is_left len lp rp : split_loop at_ (part :: rest) is_left len lp rp =
    let part_len := ba_len part in
    let is_left := if len =? at_ then false else is_left in
    if (at_ <? len + part_len) && is_left then
      do sub_at <- usize_sub at_ len;
      do (sub_left, sub_right) <- ba_split part sub_at;
      let keep := should_keep_intact (ba_function part) in
      let sub_left := if keep then ba_set_function sub_left FUnexpectedSplit else sub_left in
      let sub_right := if keep then ba_set_function sub_right FUnexpectedSplit else sub_right in
      split_loop at_ rest false (len + part_len) (lp ++ [sub_left]) (rp ++ [sub_right])
    else if is_left then split_loop at_ rest is_left (len + part_len) (lp ++ [part]) rp
    else split_loop at_ rest is_left (len + part_len) lp (rp ++ [part]).
Proof. reflexivity. Qed.

Lemma ba_split_unfold data name function preimage at_ :
  ba_split (BA data name function preimage) at_ =
    if zlen data <? at_ then Err (EInvalidSplit at_ (zlen data))
    else
      let left_data := firstn (Z.to_nat at_) data in
      let right_data := skipn (Z.to_nat at_) data in
      match preimage with
      | Some ps =>
        if negb (should_keep_intact function) then
          do (lp, rp) <- split_loop at_ ps true 0 [] [];
          Ok (BA left_data None FPlain (Some lp), BA right_data None FPlain (Some rp))
        else Ok (BA left_data None FUnexpectedSplit None, BA right_data None FUnexpectedSplit None)
      | None => Ok (BA left_data None FPlain None, BA right_data None FPlain None)
      end.
Proof. reflexivity. Qed.

Definition datas (l : list barray) : list Z := concat (map ba_data l).
Lemma datas_app a b : datas (a ++ b) = datas a ++ datas b.
Proof. unfold datas. now rewrite map_app, concat_app. Qed.
Lemma datas_cons a b : datas (a :: b) = ba_data a ++ datas b.
Proof. reflexivity. Qed.
Lemma datas_one a : datas [a] = ba_data a.
Proof. unfold datas. cbn. apply app_nil_r. Qed.

Lemma set_function_data a f : ba_data (ba_set_function a f) = ba_data a.
Proof. destruct a; reflexivity. Qed.

(** Splitting within bounds succeeds and splits the data. *)
Definition split_good (a : barray) : Prop :=
  forall at_, 0 <= at_ <= ba_len a -> exists l r, ba_split a at_ = Ok (l, r) /\
    ba_data l = firstn (Z.to_nat at_) (ba_data a) /\ ba_data r = skipn (Z.to_nat at_) (ba_data a).

Lemma split_loop_right at_ ps len lp rp :
  split_loop at_ ps false len lp rp = Ok (lp, rp ++ ps).
Proof.
  revert len lp rp; induction ps as [|p ps IH]; intros len lp rp; rewrite ?split_loop_nil, ?split_loop_cons; cbv zeta.
  - now rewrite app_nil_r.
  - assert ((if len =? at_ then false else false) = false) as -> by (destruct (len =? at_); reflexivity).
    rewrite andb_false_r. cbv iota. rewrite IH, <- app_assoc. reflexivity.
Qed.

(** The loop never fails (given that the parts can be split), whatever [at_]; and it distributes
    the first [at_] bytes of the parts to the left. *)
Lemma split_loop_ok at_ ps : Forall split_good ps -> forall len lp rp, 0 <= len <= at_ ->
  exists lp' rp', split_loop at_ ps true len lp rp = Ok (lp ++ lp', rp ++ rp') /\
    datas lp' = firstn (Z.to_nat (at_ - len)) (datas ps) /\
    datas rp' = skipn (Z.to_nat (at_ - len)) (datas ps).
Proof.
  intros HF; induction HF as [|p ps Hp HF IH]; intros len lp rp Hlen.
  - exists [], []. cbn. rewrite !app_nil_r, firstn_nil, skipn_nil. auto.
  - rewrite split_loop_cons; cbv zeta. destruct (Z.eqb_spec len at_) as [->|Hne].
    + rewrite andb_false_r. cbv iota. rewrite split_loop_right. exists [], (p :: ps).
      rewrite app_nil_r, <- app_assoc. rewrite Z.sub_diag. cbn. auto.
    + assert (0 <= ba_len p) as Hpl by apply zlen_nonneg.
      destruct (Z.ltb_spec at_ (len + ba_len p)) as [Hs|Hs]; cbn [andb].
      * unfold usize_sub. destruct (Z.ltb_spec at_ len); [lia|]. cbn [obind].
        destruct (Hp (at_ - len) ltac:(lia)) as (l & r & E & El & Er). rewrite E. cbn [obind].
        rewrite split_loop_right.
        set (l' := if should_keep_intact (ba_function p) then ba_set_function l FUnexpectedSplit else l).
        set (r' := if should_keep_intact (ba_function p) then ba_set_function r FUnexpectedSplit else r).
        assert (ba_data l' = ba_data l) as Hl' by (unfold l'; destruct (should_keep_intact _); [apply set_function_data|reflexivity]).
        assert (ba_data r' = ba_data r) as Hr' by (unfold r'; destruct (should_keep_intact _); [apply set_function_data|reflexivity]).
        exists [l'], (r' :: ps). rewrite <- app_assoc. split; [reflexivity|].
        rewrite datas_one, !datas_cons, Hl', Hr', El, Er. unfold ba_len, zlen in *.
        rewrite firstn_app, skipn_app.
        replace (Z.to_nat (at_ - len) - length (ba_data p))%nat with 0%nat by lia.
        cbn [firstn skipn]. now rewrite app_nil_r.
      * destruct (IH (len + ba_len p) (lp ++ [p]) rp ltac:(lia)) as (lp' & rp' & E & El & Er).
        exists (p :: lp'), rp'. rewrite E, <- app_assoc. split; [reflexivity|].
        rewrite !datas_cons, El, Er. unfold ba_len, zlen in *.
        rewrite firstn_app, skipn_app.
        rewrite (firstn_all2 (ba_data p)) by lia. rewrite (skipn_all2 (ba_data p)) by lia. cbn [app].
        replace (Z.to_nat (at_ - len) - length (ba_data p))%nat
          with (Z.to_nat (at_ - (len + Z.of_nat (length (ba_data p))))) by lia. auto.
Qed.

Lemma split_good_all a : split_good a.
Proof.
  induction a as [d n f|d n f ps IH] using barray_ind'; intros at_ Hat; unfold ba_len in Hat; cbn [ba_data] in *.
  - rewrite ba_split_unfold. destruct (Z.ltb_spec (zlen d) at_); [lia|]. eexists _, _. repeat split.
  - rewrite ba_split_unfold. destruct (Z.ltb_spec (zlen d) at_); [lia|]. cbv zeta.
    destruct (should_keep_intact f); cbn [negb].
    + eexists _, _. repeat split.
    + destruct (split_loop_ok at_ ps IH 0 [] [] ltac:(lia)) as (lp & rp & E & _). rewrite E. cbn [obind].
      eexists _, _. repeat split.
Qed.

Lemma split_ok_iff a at_ : 0 <= at_ ->
  (at_ <= ba_len a -> exists l r, ba_split a at_ = Ok (l, r) /\
     ba_data l = firstn (Z.to_nat at_) (ba_data a) /\ ba_data r = skipn (Z.to_nat at_) (ba_data a)) /\
  (ba_len a < at_ -> ba_split a at_ = Err (EInvalidSplit at_ (ba_len a))).
Proof.
  intros H; split; intros Hl.
  - apply split_good_all. lia.
  - destruct a as [d n f p]. rewrite ba_split_unfold. unfold ba_len in *. cbn [ba_data] in *.
    destruct (Z.ltb_spec (zlen d) at_); [reflexivity|lia].
Qed.

Lemma split_concat a at_ l r : 0 <= at_ -> ba_split a at_ = Ok (l, r) -> ba_eqb (ba_concat l r) a = true.
Proof.
  intros H E. destruct (split_ok_iff a at_ H) as [A B].
  destruct (Z_le_gt_dec at_ (ba_len a)) as [Hle|Hgt].
  - destruct (A Hle) as (l' & r' & E' & El & Er). rewrite E in E'. injection E' as <- <-.
    apply ba_eqb_spec. rewrite concat_data, El, Er. apply firstn_skipn.
  - rewrite B in E by lia. discriminate.
Qed.

Lemma from_parts_data ps : ba_data (ba_from_parts ps) = concat (map ba_data ps).
Proof.
  unfold ba_from_parts.
  assert (forall acc, match fold_left (fun acc part => match acc with
       | Some b => Some (ba_concat b part) | None => Some part end) ps acc with Some b => ba_data b | None => [] end
       = match acc with Some b => ba_data b | None => [] end ++ concat (map ba_data ps)) as G.
  { induction ps as [|p ps IH]; intros acc; cbn [fold_left map concat]; [now rewrite app_nil_r|].
    rewrite IH. destruct acc as [b|]; [rewrite concat_data, <- app_assoc; reflexivity|reflexivity]. }
  specialize (G None). cbn in G. rewrite <- G. destruct (fold_left _ _ _); reflexivity.
Qed.

(** Refinement: any history on arrays is the same history on byte strings. *)
Section Hist.
  Variable h : func -> list Z -> list Z.

  Lemma step_refines pool o : split_ok o ->
    map ba_data (impl_step h pool o) = spec_step h (map ba_data pool) o.
  Proof.
    intros Hok. destruct o as [n d|i j n|is|i at_|i n|i f]; cbn [impl_step spec_step].
    - now rewrite map_app.
    - rewrite !nth_error_map. destruct (nth_error pool i); [|reflexivity].
      destruct (nth_error pool j); [|reflexivity]. cbn. rewrite map_app. cbn. now rewrite concat_named_data.
    - rewrite map_app. cbn [map]. rewrite from_parts_data, map_map. do 3 f_equal.
      apply map_ext. intros i. change (@nil Z) with (ba_data (ba_unnamed [])). now rewrite map_nth.
    - rewrite nth_error_map. destruct (nth_error pool i) as [a|]; [|reflexivity]. cbn [option_map].
      cbn in Hok. destruct (split_ok_iff a at_ Hok) as [A B]. fold (ba_len a).
      destruct (Z.leb_spec at_ (ba_len a)) as [Hle|Hgt].
      + destruct (A Hle) as (l & r & -> & El & Er). rewrite map_app. cbn. now rewrite El, Er.
      + rewrite B by lia. reflexivity.
    - rewrite nth_error_map. destruct (nth_error pool i) as [[d nn f p]|]; [|reflexivity]. cbn. now rewrite map_app.
    - rewrite nth_error_map. destruct (nth_error pool i) as [a|]; [|reflexivity]. cbn. now rewrite map_app.
  Qed.

  Lemma history_refines ops : Forall split_ok ops -> forall pool,
    map ba_data (fold_left (impl_step h) ops pool) = fold_left (spec_step h) ops (map ba_data pool).
  Proof.
    induction 1 as [|o ops Ho HF IH]; intros pool; cbn [fold_left]; [reflexivity|].
    now rewrite IH, step_refines.
  Qed.

  (** Nothing but hashes: no signature nodes with a preimage inside. *)
  Inductive clean : barray -> Prop :=
  | CLeaf d n f : clean (BA d n f None)
  | CNode d n f ps : (f = FPlain \/ is_hash f = true \/ f = FUnexpectedSplit) -> node_truthful h f d ps ->
      Forall clean ps -> clean (BA d n f (Some ps)).

  Lemma clean_truthful a : clean a -> truthful h a.
  Proof.
    induction a as [d n f|d n f ps IH] using barray_ind'; intros H; [constructor|].
    inversion H; subst. constructor; [assumption|].
    rewrite Forall_forall in *. intros x Hx. apply IH; auto.
  Qed.

  Lemma clean_parts a : clean a ->
    Forall clean match ba_preimage a with Some p => p | None => [a] end.
  Proof.
    intros H; inversion H; subst; cbn [ba_preimage]; [constructor; [assumption|constructor]|assumption].
  Qed.

  Lemma plain_parts a : clean a -> ba_function a = FPlain ->
    datas match ba_preimage a with Some p => p | None => [a] end = ba_data a.
  Proof.
    intros H Hf. inversion H; subst; cbn [ba_preimage ba_function ba_data] in *.
    - now rewrite datas_one.
    - subst f. cbn in H1. now rewrite H1.
  Qed.

  Lemma clean_concat a b n : clean a -> clean b -> clean (ba_concat_named a b n).
  Proof.
    intros Ha Hb. unfold ba_concat_named.
    destruct (func_eqb (ba_function a) FPlain && func_eqb (ba_function b) FPlain) eqn:E.
    - apply andb_prop in E. destruct E as [E1 E2]. apply func_eqb_spec in E1, E2.
      constructor; [now left| |].
      + cbn. fold (datas (match ba_preimage a with Some p => p | None => [a] end ++
                          match ba_preimage b with Some p => p | None => [b] end)).
        rewrite datas_app, !plain_parts by assumption. reflexivity.
      + apply Forall_app; split; now apply clean_parts.
    - constructor; [now left| |].
      + cbn. now rewrite app_nil_r.
      + repeat constructor; assumption.
  Qed.

  Lemma clean_from_parts ps : Forall clean ps -> clean (ba_from_parts ps).
  Proof.
    intros H. unfold ba_from_parts.
    assert (forall acc, (forall b, acc = Some b -> clean b) -> forall b,
      fold_left (fun acc part => match acc with
       | Some b => Some (ba_concat b part) | None => Some part end) ps acc = Some b -> clean b) as G.
    { induction H as [|p ps Hp HF IH]; intros acc Hacc b; cbn [fold_left]; [apply Hacc|].
      apply IH. intros b' Hb'. destruct acc as [c|]; injection Hb' as <-; [|assumption].
      apply clean_concat; auto. }
    specialize (G None ltac:(discriminate)).
    destruct (fold_left _ _ _) as [b|]; [now apply G|constructor].
  Qed.

  Lemma clean_set_unexpected l : clean l -> (ba_preimage l = None \/ True) -> clean (ba_set_function l FUnexpectedSplit).
  Proof.
    intros H _. inversion H; subst; cbn; constructor; auto. cbn. exact I.
  Qed.

  Definition split_clean (a : barray) : Prop := clean a ->
    forall at_ l r, 0 <= at_ -> ba_split a at_ = Ok (l, r) -> clean l /\ clean r.

  Lemma split_loop_clean at_ ps : Forall split_clean ps -> Forall clean ps ->
    forall len lp rp lp' rp', 0 <= len <= at_ -> Forall clean lp -> Forall clean rp ->
    split_loop at_ ps true len lp rp = Ok (lp', rp') -> Forall clean lp' /\ Forall clean rp'.
  Proof.
    intros HS HC. induction HS as [|p ps Hp HS IH]; intros len lp rp lp' rp' Hlen Hl Hr; rewrite ?split_loop_nil, ?split_loop_cons; cbv zeta.
    - intros E; injection E as <- <-. auto.
    - inversion HC as [|? ? HCp HCps]; subst. assert (0 <= ba_len p) as Hpl by apply zlen_nonneg.
      destruct (Z.eqb_spec len at_) as [->|Hne].
      + rewrite andb_false_r. cbv iota. rewrite split_loop_right. intros E; injection E as <- <-.
        split; [assumption|]. rewrite <- app_assoc. apply Forall_app; split; auto.
      + destruct (Z.ltb_spec at_ (len + ba_len p)) as [Hs|Hs]; cbn [andb].
        * unfold usize_sub. destruct (Z.ltb_spec at_ len); [lia|]. cbn [obind].
          destruct (ba_split p (at_ - len)) as [[l r]| |] eqn:E; cbn [obind]; try discriminate.
          destruct (Hp HCp (at_ - len) l r ltac:(lia) E) as [Cl Cr].
          rewrite split_loop_right. intros G; injection G as <- <-.
          split; [apply Forall_app; split; auto; constructor; [|constructor]
                 |apply Forall_app; split; auto; apply Forall_app; split; auto; constructor; [|constructor]].
          -- destruct (should_keep_intact _); [apply clean_set_unexpected; auto|assumption].
          -- destruct (should_keep_intact _); [apply clean_set_unexpected; auto|assumption].
        * apply IH; auto; [lia|]. apply Forall_app; split; auto.
  Qed.

  Lemma split_clean_all a : split_clean a.
  Proof.
    induction a as [d n f|d n f ps IH] using barray_ind'; intros HC at_ l r Hat; rewrite ba_split_unfold.
    - destruct (zlen d <? at_); [discriminate|]. intros E; injection E as <- <-. split; constructor.
    - destruct (Z.ltb_spec (zlen d) at_) as [|Hle]; [discriminate|]. cbv zeta.
      inversion HC as [|? ? ? ? Hf Ht HFc]; subst.
      destruct (should_keep_intact f) eqn:K; cbn [negb].
      + intros E; injection E as <- <-. split; constructor.
      + assert (f = FPlain) as -> by (destruct Hf as [|[Hf|Hf]]; [assumption|destruct f; discriminate|subst; discriminate]).
        cbn in Ht. fold (datas ps) in Ht.
        assert (Forall split_good ps) as HG by (apply Forall_forall; intros; apply split_good_all).
        destruct (split_loop_ok at_ ps HG 0 [] [] ltac:(lia)) as (lp & rp & E & El & Er).
        rewrite E. cbn [obind app]. intros G; injection G as <- <-.
        destruct (split_loop_clean at_ ps IH HFc 0 [] [] lp rp ltac:(lia) ltac:(constructor) ltac:(constructor) E) as [C1 C2].
        rewrite Z.sub_0_r in *.
        split; constructor; auto; cbn; fold (datas lp) (datas rp); rewrite ?El, ?Er, Ht; reflexivity.
  Qed.

  Lemma step_clean pool o : split_ok o -> no_signing o -> Forall clean pool -> Forall clean (impl_step h pool o).
  Proof.
    intros Hok Hns HF.
    assert (forall i a, nth_error pool i = Some a -> clean a) as Hn.
    { intros i a E. rewrite Forall_forall in HF. apply HF. eapply nth_error_In; eassumption. }
    destruct o as [n d|i j n|is|i at_|i n|i f]; cbn [impl_step].
    - apply Forall_app; split; auto. repeat constructor.
    - destruct (nth_error pool i) eqn:E1; [|assumption]. destruct (nth_error pool j) eqn:E2; [|assumption].
      apply Forall_app; split; auto. constructor; [|constructor]. apply clean_concat; eauto.
    - apply Forall_app; split; auto. constructor; [|constructor]. apply clean_from_parts.
      apply Forall_forall. intros x Hx. apply in_map_iff in Hx. destruct Hx as (i & <- & _).
      destruct (nth_in_or_default i pool (ba_unnamed [])) as [G|G]; [rewrite Forall_forall in HF; auto|rewrite G; constructor].
    - destruct (nth_error pool i) as [a|] eqn:E1; [|assumption].
      destruct (ba_split a at_) as [[l r]| |] eqn:E2; try assumption.
      destruct (split_clean_all a (Hn _ _ E1) at_ l r Hok E2).
      apply Forall_app; split; auto.
    - destruct (nth_error pool i) as [a|] eqn:E1; [|assumption].
      apply Forall_app; split; auto. constructor; [|constructor].
      pose proof (Hn _ _ E1) as C. inversion C; subst; cbn; constructor; auto.
    - destruct (nth_error pool i) as [a|] eqn:E1; [|assumption].
      apply Forall_app; split; auto. constructor; [|constructor]. cbn in Hns.
      constructor; [auto| |constructor; [eauto|constructor]].
      destruct f; try discriminate Hns; cbn; eexists; split; reflexivity.
  Qed.

  Lemma history_truthful ops : Forall split_ok ops -> Forall no_signing ops ->
    Forall (truthful h) (fold_left (impl_step h) ops []).
  Proof.
    intros H1 H2.
    assert (forall pool, Forall clean pool -> Forall clean (fold_left (impl_step h) ops pool)) as G.
    { revert H2; induction H1 as [|o ops Ho H1 IH]; intros H2 pool HF; cbn [fold_left]; [assumption|].
      inversion H2; subst. apply IH; auto. now apply step_clean. }
    specialize (G [] ltac:(constructor)). rewrite Forall_forall in *. intros a Ha. apply clean_truthful; auto.
  Qed.
End Hist.

(** Concatenation of plain arrays is associative including provenance. *)
Lemma concat_assoc_plain a b c :
  ba_function a = FPlain -> ba_function b = FPlain -> ba_function c = FPlain ->
  ba_concat (ba_concat a b) c = ba_concat a (ba_concat b c).
Proof.
  intros Ha Hb Hc. unfold ba_concat, ba_concat_named. rewrite Ha, Hb, Hc. cbn.
  now rewrite !app_assoc.
Qed.
