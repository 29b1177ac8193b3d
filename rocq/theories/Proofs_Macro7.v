(** Lemmas for C39: the main induction, continued; inputs. *)
From Verif Require Import Base BaseLemmas Spec_Encoding Model_Integer Model_ByteArray Model_Opcode Model_Script Model_Behavior Model_Macro Spec_Macro Proofs_Integer Proofs_Script Proofs_Macro Proofs_Macro2 Proofs_Macro3 Proofs_Macro4 Proofs_Macro5 Proofs_Macro6.
Local Open Scope string_scope.
Local Open Scope list_scope.
Local Open Scope Z_scope.

Lemma stmts_tracked_gen sigma l :
  Forall (fun s => proper s -> Forall clean (written s) -> forall g g' code, run_stmt s g = Ok (g', code) -> along coherent s g -> honest_gen g -> tracked sigma g g' code) l ->
  Forall proper l -> Forall clean (concat (map written l)) -> forall g g' code, run_stmts l g = Ok (g', code) -> all_along coherent l g -> honest_gen g -> tracked sigma g g' code /\ honest_gen g'.
Proof.
  induction 1 as [|s l Hs _ IH]; intros Hp Hc g g' code E Ha Hg; [injection E as <- <-; split; [apply tracked_nil|exact Hg]|].
  inversion Hp; subst. cbn [map concat] in Hc. apply Forall_app in Hc. destruct Hc as (Hc1 & Hc2). rewrite run_stmts_cons in E. destruct (run_stmt s g) as [[g1 c1]| |] eqn:E1; try discriminate. cbn [obind] in E. destruct (run_stmts l g1) as [[g2 c2]| |] eqn:E2; try discriminate. cbn [obind] in E. injection E as <- <-.
  cbn [all_along] in Ha. destruct Ha as (Ha1 & Ha2). pose proof (honest_stmt s Hc1 _ _ _ E1 Hg) as Hg1. destruct (IH ltac:(assumption) Hc2 _ _ _ E2 (Ha2 _ _ E1) Hg1) as (T2 & Hg2). split; [|exact Hg2].
  apply (tracked_app sigma g g1 g2); [eapply stmt_kept; eassumption|eapply Hs; eassumption|exact T2].
Qed.
Lemma stmt_tracked sigma s : proper s -> Forall clean (written s) -> forall g g' code, run_stmt s g = Ok (g', code) -> along coherent s g -> honest_gen g -> tracked sigma g g' code.
Proof.
  induction s as [e n|o|b|a b|i t e es en IHt IHe] using stmt_ind'; intros Hp Hc g g' code E Ha Hg; try discriminate.
  - cbn [written] in Hc. inversion Hc; subst. apply (tracked_leaf sigma (SPush e n)). intros. now apply push_ok.
  - cbn [written] in Hc. inversion Hc; subst. inversion Hp as [|? Hb| | |]; subst. cbn [along] in Ha. destruct Ha as (Ha1 & Ha2). apply (tracked_leaf sigma (SOpcode o)). intros. now apply opcode_ok.
  - inversion Hp as [| | | |? ? ? ? ? Hi Ht He Hn Hes Hen]; subst.
    cbn [written] in Hc. inversion Hc as [|? ? Hci Hc1]; subst. apply Forall_app in Hc1. destruct Hc1 as (Hct & Hc2). apply Forall_app in Hc2. destruct Hc2 as (Hce & Hc3). apply Forall_app in Hc3. destruct Hc3 as (Hces & Hcen). inversion Hcen as [|? ? Hcen' _]; subst.
    apply along_if in Ha. destruct Ha as ((Hagree & _) & Ha).
    rewrite run_if_eq in E. destruct (run_opcode i g) as [[g0 c0]| |] eqn:E0; try discriminate. cbn [obind] in E. destruct (if_variable i) as [var|] eqn:Ev; [|discriminate].
    destruct (run_stmts t _) as [[g1 c1]| |] eqn:E1; try discriminate. cbn [obind] in E. destruct (match e with Some o => run_opcode o g1 | None => Ok (g1, []) end) as [[g2 c2]| |] eqn:E2; try discriminate. cbn [obind] in E.
    destruct (run_stmts es _) as [[g3 c3]| |] eqn:E3; try discriminate. cbn [obind] in E. destruct (run_opcode en g3) as [[g4 c4]| |] eqn:E4; try discriminate. cbn [obind] in E. injection E as <- <-.
    destruct (Ha g0 c0 var eq_refl eq_refl) as (Hat & Ha2). destruct (Ha2 g1 c1 g2 c2 E1 E2) as (Haes & Hbal). specialize (Hbal g3 c3 E3). clear Ha Ha2.
    pose proof (honest_opcode _ _ _ _ E0 Hci Hg) as Hg0.
    destruct (stmts_tracked_gen sigma t IHt Ht Hct _ _ _ E1 Hat Hg0) as (T1 & Hg1).
    destruct (stmts_tracked_gen sigma es IHe Hes Hces _ _ _ E3 Haes Hg0) as (T3 & Hg3).
    pose proof (opcode_kept _ _ _ _ E0) as K0. pose proof (stmts_kept _ _ _ _ E1) as K1. pose proof (stmts_kept _ _ _ _ E3) as K3.
    apply (run_plain OP_ENDIF) in E4; [|auto|exact Hen]. destruct E4 as (V4 & y & -> & Hy & Py & Ay & Iy & _).
    assert (V2 : g_vs g2 = g_vs g1). { destruct e as [o|]; [|injection E2 as <- <-; reflexivity]. apply (run_plain OP_ELSE) in E2; [|auto|now apply He]. apply E2. }
    intros k v s s' Hk Hk' Hs Hl main alt ex HR Hex rest Q HQ.
    assert (Hh : holds_in (g_vs g) s) by (now apply (sat_holds sigma)).
    destruct (run_if_own i g g0 c0 var k v s main alt Hi E0 Ev Hci Hagree Hk Hh HR) as (x & s0 & r & mr & -> & Hx & Px & Ax & -> & Hlab & Hdecl & Hk0 & Hc0 & HR0).
    destruct K0 as (_ & Katoms).
    assert (Hk0t : forall b n, nth_error (vs_states (g_vs (with_atom (Atom var b) (Gen (g_vs g0) n)))) k = Some (v, s0)) by (intros; exact Hk0).
    destruct (kept_nth _ _ k v s0 K1 Hk0) as (s1 & Hk1 & Hc1). destruct (kept_nth _ _ k v s0 K3 (Hk0t false _)) as (s3 & Hk3 & Hc3).
    assert (Hlit : forall b, sigma var = b -> forall a, In a (vs_atoms (g_vs g0) ++ [Atom var b]) -> literal sigma a).
    { intros b Hb a Hin. apply in_app_or in Hin. destruct Hin as [Hin|[<-|[]]]; [apply Hl; now rewrite <- Katoms|exact Hb]. }
    assert (Hs0 : satisfies sigma (st_condition s0)) by (now rewrite Hc0).
    cbn [g_vs vs_states] in Hk'. rewrite V2, V4 in Hk'.
    assert (Hkeys : keys (vs_states (g_vs g1)) = keys (vs_states (g_vs g3))). { destruct K1 as (K1 & _), K3 as (K3 & _). cbn [with_atom g_vs vs_states] in K1, K3. congruence. }
    rewrite (merge_nth _ _ _ _ k v s1 v s3 Hkeys Hk1 Hk3) in Hk'. injection Hk' as <-.
    cbn [app]. rewrite <- !app_assoc. apply safe_if; [exact Hx|exact Px|exact Ax|exact Hex|exact Hdecl| |rewrite Hlab; discriminate].
    intros n Hnn. rewrite Hlab in Hnn. injection Hnn as <-. destruct (sigma var) eqn:Es.
    + assert (Hht : holds (st_condition s1) (vs_atoms (g_vs g0) ++ [Atom var true]) = true). { rewrite Hc1. apply (sat_holds sigma); [exact Hs0|]. now apply Hlit. }
      apply (T1 k v s0 s1 Hk0 Hk1 Hs0 (Hlit true eq_refl) mr alt (true :: ex) HR0 Hex).
      intros m1 a1 HR1.
      assert (Hfin : safe sigma rest Q (Config m1 a1 ex)).
      { apply HQ. destruct (holds (st_condition s3) (vs_atoms (g_vs g0) ++ [Atom var true]) && negb (holds (st_condition s3) (vs_atoms (g_vs g0) ++ [Atom var false]))) eqn:Em; [exact HR1|].
        assert (Hhe : holds (st_condition s3) (vs_atoms (g_vs g0) ++ [Atom var false]) = true). { rewrite Hc3, <- Hc1, Hht in Em. rewrite Hc3, <- Hc1. now destruct (holds (st_condition s1) (vs_atoms (g_vs g0) ++ [Atom var false])). }
        destruct (Hbal k v s1 v s3 Hk1 Hk3 Hht Hhe) as (B1 & B2). rewrite honest_nth in Hg3. destruct (Hg3 _ _ _ Hk3) as (H31 & H32). destruct HR1 as (R1 & R2). split; eapply same_rel; eassumption. }
      destruct e as [o|].
      * apply (run_plain OP_ELSE) in E2; [|auto|now apply He]. destruct E2 as (_ & z & -> & Hz & Pz & Az & Iz & _). cbn [app]. apply safe_else; [exact Hz|exact Pz|exact Az|exact Iz|]. eapply stmts_skips; [exact Hes|exact E3|reflexivity|]. now apply safe_endif.
      * injection E2 as <- <-. rewrite (Hn eq_refl) in *. injection E3 as <- <-. cbn [app]. now apply safe_endif.
    + assert (Hhe : holds (st_condition s3) (vs_atoms (g_vs g0) ++ [Atom var false]) = true). { rewrite Hc3. apply (sat_holds sigma); [exact Hs0|]. now apply Hlit. }
      rewrite Hhe in HQ. rewrite andb_false_r in HQ.
      eapply stmts_skips; [exact Ht|exact E1|reflexivity|].
      destruct e as [o|].
      * apply (run_plain OP_ELSE) in E2; [|auto|now apply He]. destruct E2 as (_ & z & -> & Hz & Pz & Az & Iz & _). cbn [app]. apply safe_else; [exact Hz|exact Pz|exact Az|exact Iz|]. cbn [negb].
        apply (T3 k v s0 s3 (Hk0t false _) Hk3 Hs0 (Hlit false eq_refl) mr alt (true :: ex) HR0 Hex). intros m1 a1 HR1. apply safe_endif; [exact Hy|exact Py|exact Ay|exact Iy|]. now apply HQ.
      * injection E2 as <- <-. rewrite (Hn eq_refl) in *. injection E3 as <- <-. cbn [app]. apply safe_endif; [exact Hy|exact Py|exact Ay|exact Iy|]. apply HQ. rewrite Hk0t in Hk3. injection Hk3 as <-. exact HR0.
Qed.
Lemma stmts_tracked sigma l : Forall proper l -> Forall clean (body l) -> forall g g' code, run_stmts l g = Ok (g', code) -> all_along coherent l g -> honest_gen g -> tracked sigma g g' code /\ honest_gen g'.
Proof. apply stmts_tracked_gen. apply Forall_forall. intros s _. apply stmt_tracked. Qed.

(** ** Inputs *)
Definition named (n : string) : item := Item n false None.
Definition pushes_of (ins : list script_input) (v : string) : list string :=
  concat (map (fun i => match in_variants i with None => [in_ident i] | Some vs => repeat (in_ident i) (occurrences v vs) end) ins).
Lemma push_variant_spec v i l : forall l', push_variant v i l = Ok l' -> NoDup (map fst l) -> map fst l' = map fst l /\ keys l' = keys l /\
  forall k w s, nth_error l k = Some (w, s) -> nth_error l' k = Some (w, if String.eqb v w then with_stack s false (i :: st_stack s) else s).
Proof.
  induction l as [|[w s] l IH]; intros l' E Hn; cbn [push_variant] in E; [discriminate|]. cbn [map fst] in Hn. inversion Hn as [|? ? Hnin Hn']; subst. destruct (String.eqb_spec w v) as [->|Hw].
  - injection E as <-. split; [reflexivity|]. split; [reflexivity|]. intros [|k] x t Hk; cbn [nth_error] in *; [injection Hk as <- <-; now rewrite String.eqb_refl|]. rewrite Hk. do 2 f_equal. destruct (String.eqb_spec v x) as [->|]; [|reflexivity]. exfalso. apply Hnin. apply nth_error_In in Hk. now apply (in_map fst) in Hk.
  - destruct (push_variant v i l) as [r'| |] eqn:Er; try discriminate. cbn [obind] in E. injection E as <-. destruct (IH r' eq_refl Hn') as (A & B & C). split; [cbn [map fst]; now rewrite A|]. split; [unfold keys in *; cbn [map fst snd]; now rewrite B|].
    intros [|k] x t Hk; cbn [nth_error] in *; [|now apply C]. injection Hk as <- <-. destruct (String.eqb_spec v w); [congruence|reflexivity].
Qed.
Lemma push_variants_spec enum i vs : forall l l', push_variants enum vs i l = Ok l' -> NoDup (map fst l) -> map fst l' = map fst l /\ keys l' = keys l /\
  forall k w s, nth_error l k = Some (w, s) -> nth_error l' k = Some (w, with_stack s false (repeat i (occurrences w vs) ++ st_stack s)).
Proof.
  induction vs as [|v vs IH]; intros l l' E Hn; cbn [push_variants] in E.
  - injection E as <-. split; [reflexivity|]. split; [reflexivity|]. intros k w s Hk. rewrite Hk. destruct s; reflexivity.
  - destruct (push_variant v i l) as [l1| |] eqn:E1; try discriminate. cbn [obind] in E. destruct enum; [|discriminate]. destruct (push_variant_spec _ _ _ _ E1 Hn) as (A & B & C). destruct (IH _ _ E ltac:(now rewrite A)) as (A' & B' & C'). split; [congruence|]. split; [congruence|].
    intros k w s Hk. rewrite (C' _ _ _ (C _ _ _ Hk)). do 2 f_equal. unfold occurrences. cbn [filter]. rewrite String.eqb_sym. destruct (String.eqb w v); [|reflexivity].
    cbn [length repeat]. unfold with_stack. cbn [st_condition st_stack st_alt]. f_equal. rewrite repeat_cons, <- app_assoc. reflexivity.
Qed.
Lemma holds_start p : holds p [] = true.
Proof. destruct p as [|c p]; [reflexivity|]. cbn. apply orb_true_iff. left. apply forallb_forall. intros; reflexivity. Qed.
Lemma run_inputs_spec enum ins : forall vs vs', run_inputs enum ins vs = Ok vs' -> vs_atoms vs = [] -> NoDup (map fst (vs_states vs)) -> vs_atoms vs' = [] /\ map fst (vs_states vs') = map fst (vs_states vs) /\ keys (vs_states vs') = keys (vs_states vs) /\
  forall k w s, nth_error (vs_states vs) k = Some (w, s) -> nth_error (vs_states vs') k = Some (w, with_stack s false (rev (map named (pushes_of ins w)) ++ st_stack s)).
Proof.
  induction ins as [|i ins IH]; intros vs vs' E Ha Hn; cbn [run_inputs] in E.
  - injection E as <-. split; [exact Ha|]. split; [reflexivity|]. split; [reflexivity|]. intros k w s Hk. rewrite Hk. destruct s; reflexivity.
  - match type of E with obind ?x _ = _ => destruct x as [vs1| |] eqn:E1; try discriminate end. cbn [obind] in E.
    assert (H1 : vs_atoms vs1 = [] /\ map fst (vs_states vs1) = map fst (vs_states vs) /\ keys (vs_states vs1) = keys (vs_states vs) /\ forall k w s, nth_error (vs_states vs) k = Some (w, s) ->
      nth_error (vs_states vs1) k = Some (w, with_stack s false (rev (map named (pushes_of [i] w)) ++ st_stack s))).
    { destruct (in_variants i) as [names|] eqn:Ei.
      - destruct (push_variants enum names (Item (in_ident i) false None) (vs_states vs)) as [l1| |] eqn:E2; try discriminate. cbn [obind] in E1. injection E1 as <-. cbn [vs_atoms vs_states]. split; [exact Ha|]. destruct (push_variants_spec _ _ _ _ _ E2 Hn) as (A & B & C). split; [exact A|]. split; [exact B|].
        intros k w s Hk. rewrite (C _ _ _ Hk). do 3 f_equal. unfold pushes_of. cbn [map concat]. rewrite Ei, app_nil_r. fold (named (in_ident i)). generalize (occurrences w names). intros n. rewrite <- map_rev. assert (Hr : forall (x : string) n, rev (repeat x n) = repeat x n). { intros x m. induction m as [|m IHm]; [reflexivity|]. cbn [repeat rev]. rewrite IHm. symmetry. apply repeat_cons. }
        rewrite Hr. f_equal. induction n as [|n IHn]; [reflexivity|]. cbn [repeat map]. f_equal. exact IHn.
      - injection E1 as <-. cbn [vs_atoms]. split; [exact Ha|]. unfold vs_push. cbn [vs_states]. split; [rewrite map_map; apply map_ext; now intros [v s]|]. split; [apply (push_kept false _ (Gen vs 0))|].
        intros k w s Hk. rewrite (map_nth_error _ _ _ Hk). rewrite Ha, holds_start. unfold pushes_of. cbn [map concat]. rewrite Ei. reflexivity. }
    destruct H1 as (A & B & C & D). destruct (IH _ _ E A ltac:(now rewrite B)) as (A' & B' & C' & D'). split; [exact A'|]. split; [congruence|]. split; [congruence|]. intros k w s Hk. rewrite (D' _ _ _ (D _ _ _ Hk)). do 2 f_equal.
    unfold with_stack. cbn [st_condition st_stack st_alt]. f_equal. rewrite app_assoc. f_equal. rewrite <- rev_app_distr, <- map_app. do 2 f_equal. unfold pushes_of. cbn [map concat]. rewrite app_nil_r. reflexivity.
Qed.
Lemma initial_variants m : map fst (initial_states m) = map fst (variants m) /\ forall k v p, nth_error (variants m) k = Some (v, p) -> nth_error (initial_states m) k = Some (v, State p [] []).
Proof.
  unfold initial_states, variants. destruct (ms_variants m) as [|x l] eqn:E.
  - split; [reflexivity|]. intros [|k] v p Hk; cbn in Hk; [injection Hk as <- <-; reflexivity|destruct k; discriminate].
  - clear E. generalize (x :: l). clear x l. intros l. split; [rewrite map_map; apply map_ext; now intros [v p]|]. intros k v p Hk. rewrite (map_nth_error _ _ _ Hk). reflexivity.
Qed.
Lemma named_rels l : forall main, Forall (fun n => made_up n = false) l -> map r_label main = map Some l -> Forall2 rel (map named l) main.
Proof.
  induction l as [|n l IH]; intros [|r main] HF E; try discriminate; [constructor|]. cbn [map] in E. injection E as E1 E2. inversion HF; subst. cbn [map]. constructor; [|now apply IH]. destruct r as [lab v]. cbn [r_label] in E1. subst lab. now apply rel_named.
Qed.
Lemma pushes_real ins v : Forall (fun i => made_up (in_ident i) = false) ins -> Forall (fun n => made_up n = false) (pushes_of ins v).
Proof.
  induction 1 as [|i ins Hi _ IH]; [constructor|]. unfold pushes_of. cbn [map concat]. apply Forall_app. split; [|exact IH]. destruct (in_variants i); [|now constructor]. apply Forall_forall. intros x Hx. now apply repeat_spec in Hx as ->.
Qed.
Lemma honest_with_named s l : honest_state s -> Forall (fun n => made_up n = false) l -> honest_state (with_stack s false (rev (map named l) ++ st_stack s)).
Proof.
  intros Hs Hl. apply honest_with; [exact Hs|]. apply Forall_app. split; [|apply Hs]. apply Forall_rev. apply Forall_map. eapply Forall_impl; [|exact Hl]. intros n Hn. now apply honest_named.
Qed.
Lemma rels_labels l main : Forall2 rel l main -> map r_label main = map label_of l.
Proof. induction 1 as [|i r l main (H & _) _ IH]; [reflexivity|]. cbn [map]. now rewrite H, IH. Qed.
Theorem script_tracked m g code v p sigma main :
  run_script m = Ok (g, code) -> script_clean m -> script_along coherent m -> In (v, p) (variants m) -> satisfies sigma p ->
  map r_label main = rev (map Some (variant_pushes m v)) ->
  exists s, In (v, s) (vs_states (g_vs g)) /\ follows sigma code main s.
Proof.
  intros E (Hp & Hc & Hi0 & Hn) Ha Hv Hs Hm. assert (Hi : Forall (fun i => made_up (in_ident i) = false) (ms_inputs m)) by (eapply Forall_impl; [|exact Hi0]; intros i H; apply H).
  assert (Hvp : variant_pushes m v = pushes_of (ms_inputs m) v).
  { unfold variant_pushes, pushes_of. destruct (ms_variants m); [|reflexivity]. clear -Hi0. induction Hi0 as [|i l [_ H] _ IH]; [reflexivity|]. cbn [map concat]. rewrite (H eq_refl). cbn [app]. now f_equal. }
  rewrite Hvp in Hm. clear Hvp Hi0. unfold run_script in E. destruct (run_inputs (has_variants m) (ms_inputs m) (VStates (initial_states m) [])) as [vs| |] eqn:Ei; try discriminate. cbn [obind] in E.
  specialize (Ha vs Ei). destruct (initial_variants m) as (Hf & Hinit). destruct (run_inputs_spec _ _ _ _ Ei eq_refl) as (A & B & C & D); [cbn [vs_states]; now rewrite Hf|]. cbn [vs_states] in B, C, D.
  apply In_nth_error in Hv. destruct Hv as (k & Hk). specialize (D k v _ (Hinit k v p Hk)). cbn [st_stack] in D. rewrite app_nil_r in D.
  assert (Hhonest : honest_gen (Gen vs 0)).
  { apply honest_nth. cbn [g_vs]. intros k' v' s' Hk'. assert (Hkk : nth_error (map fst (vs_states vs)) k' = Some v') by (now rewrite (map_nth_error _ _ _ Hk')). rewrite B, Hf in Hkk. rewrite nth_error_map in Hkk. destruct (nth_error (variants m) k') as [[v0 p0]|] eqn:E0; [|discriminate]. cbn in Hkk. injection Hkk as ->.
    destruct (run_inputs_spec _ _ _ _ Ei eq_refl) as (_ & _ & _ & D'); [cbn [vs_states]; now rewrite Hf|]. specialize (D' k' v' _ (Hinit k' v' p0 E0)). rewrite D' in Hk'. injection Hk' as <-. apply (honest_with_named (State p0 [] [])); [split; constructor|now apply pushes_real]. }
  destruct (stmts_tracked sigma _ Hp Hc _ _ _ E Ha Hhonest) as (T & _). pose proof (stmts_kept _ _ _ _ E) as K. destruct (kept_nth _ _ k v _ K D) as (s & Hks & _).
  exists s. split; [now apply nth_error_In in Hks|].
  assert (Hsafe : safe sigma (code ++ []) (fun c => c_exec c = [] /\ map r_label (c_main c) = map label_of (st_stack s) /\ map r_label (c_alt c) = map label_of (st_alt s)) (Config main [] [])).
  { apply (T k v _ s D Hks).
    - exact Hs.
    - cbn [g_vs]. rewrite A. intros a [].
    - split; [|constructor]. cbn [with_stack st_stack]. rewrite <- map_rev. apply named_rels; [apply Forall_rev; now apply pushes_real|]. rewrite Hm, <- map_rev. reflexivity.
    - reflexivity.
    - intros m' a' (R1 & R2). cbn [safe c_exec c_main c_alt]. split; [reflexivity|]. split; now apply rels_labels. }
  rewrite app_nil_r in Hsafe. intros rest c Hr. pose proof (safe_reaches _ _ _ _ Hsafe _ _ Hr) as H. destruct rest as [|e rest]; [exact H|]. cbn [safe] in H. destruct H as (H1 & H2). split; [exact H1|]. intros c' Hst Hact. now apply (H2 c' Hst).
Qed.
