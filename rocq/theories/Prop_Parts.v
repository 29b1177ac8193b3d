(** C09, completeness: provenance is not lost either. *)
From Verif Require Import Base BaseLemmas Model_ByteArray Spec_ByteArray Spec_Parts Proofs_ByteArray.
Local Open Scope string_scope.
Local Open Scope list_scope.
Local Open Scope Z_scope.

Definition all_parts (l : list barray) : list barray := flat_map parts l.
Lemma parts_plain d n ps : parts (BA d n FPlain (Some ps)) = all_parts ps.
Proof. cbn [parts]. induction ps as [|p ps IH]; [reflexivity|]. cbn [all_parts flat_map]. now rewrite IH. Qed.
Lemma parts_other d n f p : f <> FPlain -> parts (BA d n f p) = [BA d n f p].
Proof. destruct f; try reflexivity. congruence. Qed.
Lemma parts_leaf d n f : parts (BA d n f None) = [BA d n f None].
Proof. destruct f; reflexivity. Qed.
Lemma all_parts_app a b : all_parts (a ++ b) = all_parts a ++ all_parts b.
Proof. apply flat_map_app. Qed.

(** Concatenation keeps every part of both sides, in order. *)
Theorem C09_concat_keeps_parts : forall a b name, parts (ba_concat_named a b name) = parts a ++ parts b.
Proof.
  intros a b name. unfold ba_concat_named. destruct (func_eqb (ba_function a) FPlain && func_eqb (ba_function b) FPlain) eqn:E.
  - apply andb_prop in E. destruct E as [E1%func_eqb_spec E2%func_eqb_spec]. rewrite parts_plain, all_parts_app.
    destruct a as [d n f p], b as [d' n' f' p']; cbn [ba_function ba_preimage] in *; subst. f_equal; [destruct p|destruct p']; rewrite ?parts_plain; try reflexivity.
  - rewrite parts_plain. cbn [all_parts flat_map]. now rewrite app_nil_r.
Qed.
Print Assumptions C09_concat_keeps_parts.
Theorem C09_from_parts_keeps_parts : forall ps, ps <> [] -> parts (ba_from_parts ps) = concat (map parts ps).
Proof.
  intros [|p ps] H; [congruence|]. clear H. unfold ba_from_parts. cbn [fold_left map concat].
  assert (forall b, match fold_left (fun acc part => match acc with Some b => Some (ba_concat b part) | None => Some part end) ps (Some b) with Some b => b | None => ba_unnamed [] end
     = fold_left ba_concat ps b) as ->. { induction ps as [|q ps IH]; intros b; [reflexivity|]. cbn [fold_left]. apply IH. }
  revert p. induction ps as [|q ps IH]; intros p; cbn [fold_left map concat]; [now rewrite app_nil_r|]. rewrite IH. unfold ba_concat. rewrite C09_concat_keeps_parts. now rewrite <- app_assoc.
Qed.
Print Assumptions C09_from_parts_keeps_parts.

(** Hashing, reversing and signing record which array they were applied to; naming changes nothing but the name. *)
Theorem C09_function_recorded : forall a d f, ba_preimage (ba_apply_function a d f) = Some [a] /\ ba_function (ba_apply_function a d f) = f.
Proof. intros. split; reflexivity. Qed.
Print Assumptions C09_function_recorded.
Theorem C09_naming_keeps : forall a n, ba_name (ba_named a n) = Some n /\
  ba_data (ba_named a n) = ba_data a /\ ba_function (ba_named a n) = ba_function a /\ ba_preimage (ba_named a n) = ba_preimage a.
Proof. intros [d n' f p] n. repeat split. Qed.
Print Assumptions C09_naming_keeps.

Section S.
Variable h : func -> list Z -> list Z.
Definition split_parts (a : barray) : Prop := clean h a -> forall at_ l r, 0 <= at_ -> ba_split a at_ = Ok (l, r) ->
  exists before mid after ml mr, parts a = before ++ mid ++ after /\ parts l = before ++ ml /\ parts r = mr ++ after /\
    ((mid = [] /\ ml = [] /\ mr = []) \/ exists p pl pr, mid = [p] /\ ml = [pl] /\ mr = [pr] /\ cut p pl pr).
Lemma split_leaf p at_ l r : (parts p = [p]) -> clean h p -> 0 <= at_ -> ba_split p at_ = Ok (l, r) ->
  cut p (if should_keep_intact (ba_function p) then ba_set_function l FUnexpectedSplit else l) (if should_keep_intact (ba_function p) then ba_set_function r FUnexpectedSplit else r) /\ 
  cut p l r \/ exists d n ps, p = BA d n FPlain (Some ps).
Proof.
  intros Hp Hc Hat E. destruct p as [d n f pre]. rewrite ba_split_unfold in E. destruct (zlen d <? at_); [discriminate|]. cbv zeta in E.
  destruct pre as [ps|].
  - inversion Hc as [|? ? ? ? Hf _ _]; subst. destruct Hf as [->|Hf]; [right; eauto|]. left.
    assert (should_keep_intact f = true) as K by (destruct Hf as [Hf|Hf]; destruct f; discriminate || reflexivity).
    rewrite K in E. cbn [negb] in E. injection E as <- <-. cbn [ba_function]. rewrite K. cbn [ba_set_function].
    assert (cut (BA d n f (Some ps)) (BA (firstn (Z.to_nat at_) d) None FUnexpectedSplit None) (BA (skipn (Z.to_nat at_) d) None FUnexpectedSplit None)) as C.
    { exists (firstn (Z.to_nat at_) d), (skipn (Z.to_nat at_) d), FUnexpectedSplit. split; [reflexivity|]. split; [reflexivity|]. split; [cbn [ba_data]; now rewrite firstn_skipn|]. split; [now right|].
      split; [reflexivity|]. cbn [ba_function]. intros ->. discriminate K. }
    split; exact C.
  - injection E as <- <-. left. cbn [ba_function].
    assert (forall g, (g = FPlain \/ g = FUnexpectedSplit) -> (f = FPlain -> g = FPlain) -> cut (BA d n f None) (BA (firstn (Z.to_nat at_) d) None g None) (BA (skipn (Z.to_nat at_) d) None g None)) as C.
    { intros g Hg Hg'. exists (firstn (Z.to_nat at_) d), (skipn (Z.to_nat at_) d), g. split; [reflexivity|]. split; [reflexivity|]. split; [cbn [ba_data]; now rewrite firstn_skipn|]. split; [exact Hg|].
      split; [cbn [ba_preimage]; congruence|exact Hg']. }
    destruct (should_keep_intact f) eqn:K; cbn [ba_set_function]; split; apply C; auto. intros ->. discriminate K.
Qed.
Lemma loop_parts at_ ps : Forall split_parts ps -> Forall (clean h) ps -> forall len lp rp lp' rp', 0 <= len <= at_ ->
  split_loop at_ ps true len lp rp = Ok (lp', rp') ->
  exists before mid after ml mr, all_parts ps = before ++ mid ++ after /\ all_parts lp' = all_parts lp ++ before ++ ml /\ all_parts rp' = all_parts rp ++ mr ++ after /\
    ((mid = [] /\ ml = [] /\ mr = []) \/ exists p pl pr, mid = [p] /\ ml = [pl] /\ mr = [pr] /\ cut p pl pr).
Proof.
  intros HS HC. induction HS as [|p ps Hp HS IH]; intros len lp rp lp' rp' Hlen; rewrite ?split_loop_nil, ?split_loop_cons; cbv zeta.
  - intros E. injection E as <- <-. exists [], [], [], [], []. rewrite !app_nil_r. cbn. repeat split; auto.
  - inversion HC as [|? ? HCp HCps]; subst. assert (0 <= ba_len p) as Hpl by apply zlen_nonneg. destruct (Z.eqb_spec len at_) as [->|Hne].
    + rewrite andb_false_r. cbv iota. rewrite split_loop_right. intros E; injection E as <- <-. exists [], [], (all_parts (p :: ps)), [], [].
      rewrite <- app_assoc, all_parts_app. cbn [app]. rewrite app_nil_r. repeat split; auto.
    + destruct (Z.ltb_spec at_ (len + ba_len p)) as [Hs|Hs]; cbn [andb].
      * unfold usize_sub. destruct (Z.ltb_spec at_ len); [lia|]. cbn [obind]. destruct (ba_split p (at_ - len)) as [[l r]| |] eqn:E; cbn [obind]; try discriminate.
        rewrite split_loop_right. intros G; injection G as <- <-.
        set (l' := if should_keep_intact (ba_function p) then ba_set_function l FUnexpectedSplit else l) in *.
        set (r' := if should_keep_intact (ba_function p) then ba_set_function r FUnexpectedSplit else r) in *.
        assert (exists before mid after ml mr, parts p = before ++ mid ++ after /\ parts l' = before ++ ml /\ parts r' = mr ++ after /\
          ((mid = [] /\ ml = [] /\ mr = []) \/ exists p pl pr, mid = [p] /\ ml = [pl] /\ mr = [pr] /\ cut p pl pr)) as (before & mid & after & ml & mr & P1 & P2 & P3 & P4).
        { assert (parts p = [p] \/ exists d n qs, p = BA d n FPlain (Some qs)) as [A|(d & n & qs & ->)].
          { destruct p as [d n f [qs|]]; [|left; apply parts_leaf]. destruct (func_eq_dec f FPlain) as [->|N]; [right; eauto|left; now apply parts_other]. }
          - destruct (split_leaf p (at_ - len) l r A HCp ltac:(lia) E) as [[C _]|(d & n & qs & ->)].
            + fold l' r' in C. exists [], [p], [], [l'], [r']. cbn [app]. rewrite A. pose proof C as (d1 & d2 & f & -> & -> & _). rewrite !parts_leaf. repeat split; auto. right. eauto 8.
            + subst l' r'. cbn [ba_function should_keep_intact]. exact (Hp HCp (at_ - len) l r (proj2 (Z.le_0_sub len at_) ltac:(lia)) E).
          - subst l' r'. cbn [ba_function should_keep_intact]. exact (Hp HCp (at_ - len) l r (proj2 (Z.le_0_sub len at_) ltac:(lia)) E). }
        exists before, mid, (after ++ all_parts ps), ml, mr. unfold all_parts in *. rewrite !flat_map_app. cbn [flat_map]. rewrite !app_nil_r, P1, P2, P3, <- !app_assoc. repeat split; auto.
      * intros E. destruct (IH HCps (len + ba_len p) (lp ++ [p]) rp lp' rp' ltac:(lia) E) as (before & mid & after & ml & mr & P1 & P2 & P3 & P4).
        exists (parts p ++ before), mid, after, ml, mr. unfold all_parts in *. cbn [flat_map]. rewrite P1, P2, P3, flat_map_app. cbn [flat_map]. rewrite app_nil_r, <- !app_assoc. repeat split; auto.
Qed.
Lemma split_parts_all a : split_parts a.
Proof.
  induction a as [d n f|d n f ps IH] using barray_ind'; intros HC at_ l r Hat E.
  - assert (parts (BA d n f None) = [BA d n f None]) as A by apply parts_leaf.
    destruct (split_leaf _ at_ l r A HC Hat E) as [[_ C]|(? & ? & ? & C)]; [|discriminate C]. exists [], [BA d n f None], [], [l], [r]. rewrite A.
    pose proof C as (d1 & d2 & g & -> & -> & _). rewrite !parts_leaf. repeat split; auto. right. eauto 8.
  - destruct (func_eq_dec f FPlain) as [->|N].
    + rewrite ba_split_unfold in E. destruct (zlen d <? at_) eqn:L; [discriminate|]. cbv zeta in E. cbn [should_keep_intact negb] in E. apply obind_ok in E. destruct E as ([lp rp] & E & G). injection G as <- <-.
      inversion HC as [|? ? ? ? _ _ HCs]; subst. assert (0 <= 0 <= at_) as Hz by (split; [reflexivity|exact Hat]). destruct (loop_parts at_ ps IH HCs 0 [] [] lp rp Hz E) as (before & mid & after & ml & mr & P1 & P2 & P3 & P4).
      exists before, mid, after, ml, mr. rewrite !parts_plain. cbn [all_parts flat_map app] in *. auto.
    + assert (parts (BA d n f (Some ps)) = [BA d n f (Some ps)]) as A by now apply parts_other.
      destruct (split_leaf _ at_ l r A HC Hat E) as [[_ C]|(? & ? & ? & C)]; [|congruence]. exists [], [BA d n f (Some ps)], [], [l], [r]. rewrite A.
      pose proof C as (d1 & d2 & g & -> & -> & _). rewrite !parts_leaf. repeat split; auto. right. eauto 8.
Qed.
Lemma pool_clean ops : Forall split_ok ops -> Forall no_signing ops -> Forall (clean h) (fold_left (impl_step h) ops []).
Proof.
  intros H1 H2. assert (forall pool, Forall (clean h) pool -> Forall (clean h) (fold_left (impl_step h) ops pool)) as G.
  { revert H2; induction H1 as [|o ops Ho H1 IH]; intros H2 pool HF; cbn [fold_left]; [assumption|]. inversion H2; subst. apply IH; auto. now apply step_clean. }
  apply G. constructor.
Qed.
End S.

(** Splitting, after any history without signing: every part stays, unchanged and on its side, except at most one that
    is cut in two. *)
Theorem C09_split_keeps_parts : forall h ops a at_ l r, Forall split_ok ops -> Forall no_signing ops ->
  In a (fold_left (impl_step h) ops []) -> 0 <= at_ -> ba_split a at_ = Ok (l, r) ->
  exists before after,
    (parts a = before ++ after /\ parts l = before /\ parts r = after) \/
    (exists p pl pr, parts a = before ++ [p] ++ after /\ parts l = before ++ [pl] /\ parts r = [pr] ++ after /\ cut p pl pr).
Proof.
  intros h ops a at_ l r H1 H2 Ha Hat E. pose proof (pool_clean h ops H1 H2) as HF. rewrite Forall_forall in HF.
  destruct (split_parts_all h a (HF a Ha) at_ l r Hat E) as (before & mid & after & ml & mr & P1 & P2 & P3 & [(-> & -> & ->)|(p & pl & pr & -> & -> & -> & C)]); exists before, after.
  - left. rewrite app_nil_r in P2. auto.
  - right. exists p, pl, pr. auto.
Qed.
Print Assumptions C09_split_keeps_parts.
(** Concatenating the halves of such a split at a part boundary gives back the same parts. *)
Example C09_parts_nonvacuous :
  let h := fun (f : func) (d : list Z) => rev d in
  let ops := [ONew (Some "a") [1;2;3]; OApply 0 FSha256; OConcat 0 1 (Some "ab"); OName 2 "x"; ONew None [9]; OParts [3; 4; 1]%nat] in
  Forall split_ok ops /\ Forall no_signing ops /\
  exists a l r, nth_error (fold_left (impl_step h) ops []) 5 = Some a /\ ba_data a = [1;2;3;3;2;1;9;3;2;1] /\ length (parts a) = 4%nat /\
    ba_split a 5 = Ok (l, r) /\
    map ba_data (parts l) = [[1;2;3];[3;2]] /\ map ba_data (parts r) = [[1];[9];[3;2;1]] /\ map ba_function (parts l) = [FPlain; FUnexpectedSplit] /\ map ba_function (parts r) = [FUnexpectedSplit; FPlain; FSha256].
Proof.
  cbv zeta. split; [repeat constructor; cbn; lia|]. split; [repeat constructor|]. do 3 eexists. split; [vm_compute; reflexivity|]. split; [vm_compute; reflexivity|]. split; [vm_compute; reflexivity|]. split; [vm_compute; reflexivity|]. vm_compute. repeat split.
Qed.
