(** Lemmas for C57: the other statements, from the view of one possible variant. *)
From Verif Require Import Base BaseLemmas Spec_Encoding Model_Integer Model_ByteArray Model_Opcode Model_Script Model_Behavior Model_Macro Spec_Script Spec_Macro Proofs_Integer Proofs_Script Proofs_Macro Proofs_Macro2 Proofs_Macro3 Proofs_Macro4 Proofs_Macro5 Proofs_Macro6
  Spec_Network Proofs_Network Proofs_Network2 Spec_Behavior Proofs_Behavior Spec_MacroRun Proofs_MacroRun Model_Mock Model_MacroType Spec_MacroType Proofs_MacroType Proofs_MacroType2 Proofs_MacroType3 Proofs_MacroType4 Proofs_MacroType5.
Local Open Scope string_scope.
Local Open Scope list_scope.
Local Open Scope Z_scope.

Lemma tupdate_inv o i i' : tupdate_item_name o i = Ok i' -> t_ident i' = t_ident i /\ it_integer (t_item i') = it_integer (t_item i).
Proof.
  unfold tupdate_item_name, update_item_name. destruct (os_outputs o) as [[|n [|]]|]; cbn [obind]; try discriminate; intros H; injection H as <-; cbn; auto.
Qed.
Lemma update_typed G o i i' v : tupdate_item_name o i = Ok i' -> item_typed G i v -> item_typed G i' v.
Proof. intros U (A & B). apply tupdate_inv in U. destruct U as (U1 & U2). split; [now rewrite U1|]. now rewrite U2. Qed.
Lemma push_own' is_alt i g k v s : nth_error (tv_states (tg_vs g)) k = Some (v, s) -> tholds_in (tg_vs g) s ->
  nth_error (tv_states (tg_vs (tg_push is_alt i g))) k = Some (v, twith_stack s is_alt (i :: tthe_stack s is_alt)).
Proof. apply tpush_own. Qed.
Lemma alt_signature c t : c = OP_TOALTSTACK \/ c = OP_FROMALTSTACK -> signature c [t] [t].
Proof. intros [->| ->]; exists [PVar 0], [PVar 0], (fun _ => t); repeat split. Qed.
Lemma toalt_typed E G o g g' code lines k v s main alt :
  (do (i, g1) <- tg_pop false g; do _ <- verify_item_name o (t_item i); do i' <- tupdate_item_name o i;
   Ok (tg_push true i' g1, [Emitted (EmCode OP_TOALTSTACK) [] [name_tokens (t_item i')] (SOpcode o)], @nil line)) = Ok (g', code, lines) -> tagree_at G false 0 g ->
  nth_error (tv_states (tg_vs g)) k = Some (v, s) -> tholds_in (tg_vs g) s -> Rt G s main alt -> lines = [] /\ tleaf E G g' code k v main alt.
Proof.
  intros E0 Ha Hk Hh (R1 & R2). destruct (tg_pop false g) as [[i g1]| |] eqn:Ep; try discriminate. cbn [obind] in E0. destruct (verify_item_name o (t_item i)); try discriminate. cbn [obind] in E0. destruct (tupdate_item_name o i) as [i'| |] eqn:Eu; try discriminate. cbn [obind] in E0. injection E0 as <- <- <-.
  split; [reflexivity|]. destruct (tpop_own G _ _ _ _ _ _ _ Ep Ha Hk Hh) as (i0 & rest & Et & Hk1 & Hf). destruct (tpop_spec _ _ _ _ Ep) as (_ & Hat & _). cbn [tthe_stack] in Et. rewrite Et in R1. apply Forall2_cons_l in R1. destruct R1 as (w & mr & -> & Hw & Hr).
  pose proof (item_fits _ _ _ _ Hf Hw) as Hw'. pose proof (update_typed _ _ _ _ _ Eu Hw') as Hi'. destruct Hw' as ((t & Lt & Ht) & _).
  eexists. split; [apply push_own'; [exact Hk1|unfold tholds_in in *; now rewrite twith_condition, Hat]|]. right. eexists. split; [reflexivity|]. cbn [em_op]. split; [intros [H|[H|H]]; discriminate H|]. split.
  - intros ex co c Hc. injection Hc as <-. exists [t], [t], [w], mr. split; [apply alt_signature; auto|]. split; [reflexivity|]. constructor; [exact Ht|constructor].
  - intros ex co bs j after m' Hex _ Hm Hst. unfold op_of in Hm. cbn [em_op] in Hm. destruct (means_code _ _ Hm) as [[K _]|[_ ->]]; [discriminate K|]. cbv beta iota delta [Spec_Network.step opcode_u8 Spec_Network.active m_exec] in Hst. rewrite Hex in Hst. cbn in Hst. injection Hst as <-.
    eexists _, _, _. split; [reflexivity|]. destruct s as [sc ss sa]. cbn in *. split; [exact Hr|]. constructor; assumption.
Qed.
Lemma fromalt_typed E G o g g' code lines k v s main alt :
  (do (i, g1) <- tg_pop true g; do _ <- verify_item_name o (t_item i); do i' <- tupdate_item_name o i;
   Ok (tg_push false i' g1, [Emitted (EmCode OP_FROMALTSTACK) [name_tokens (t_item i')] [] (SOpcode o)], @nil line)) = Ok (g', code, lines) -> tagree_at G true 0 g ->
  nth_error (tv_states (tg_vs g)) k = Some (v, s) -> tholds_in (tg_vs g) s -> Rt G s main alt -> lines = [] /\ tleaf E G g' code k v main alt.
Proof.
  intros E0 Ha Hk Hh (R1 & R2). destruct (tg_pop true g) as [[i g1]| |] eqn:Ep; try discriminate. cbn [obind] in E0. destruct (verify_item_name o (t_item i)); try discriminate. cbn [obind] in E0. destruct (tupdate_item_name o i) as [i'| |] eqn:Eu; try discriminate. cbn [obind] in E0. injection E0 as <- <- <-.
  split; [reflexivity|]. destruct (tpop_own G _ _ _ _ _ _ _ Ep Ha Hk Hh) as (i0 & rest & Et & Hk1 & Hf). destruct (tpop_spec _ _ _ _ Ep) as (_ & Hat & _). cbn [tthe_stack] in Et. rewrite Et in R2. apply Forall2_cons_l in R2. destruct R2 as (w & mr & -> & Hw & Hr).
  pose proof (item_fits _ _ _ _ Hf Hw) as Hw'. pose proof (update_typed _ _ _ _ _ Eu Hw') as Hi'. destruct Hw' as ((t & Lt & Ht) & _).
  eexists. split; [apply push_own'; [exact Hk1|unfold tholds_in in *; now rewrite twith_condition, Hat]|]. right. eexists. split; [reflexivity|]. cbn [em_op]. split; [intros [H|[H|H]]; discriminate H|]. split.
  - intros ex co c Hc. injection Hc as <-. exists [t], [t], [w], mr. split; [apply alt_signature; auto|]. split; [reflexivity|]. constructor; [exact Ht|constructor].
  - intros ex co bs j after m' Hex _ Hm Hst. unfold op_of in Hm. cbn [em_op] in Hm. destruct (means_code _ _ Hm) as [[K _]|[_ ->]]; [discriminate K|]. cbv beta iota delta [Spec_Network.step opcode_u8 Spec_Network.active m_exec] in Hst. rewrite Hex in Hst. cbn in Hst. injection Hst as <-.
    eexists _, _, _. split; [reflexivity|]. destruct s as [sc ss sa]. cbn in *. split; [|exact Hr]. constructor; assumption.
Qed.
(** PICK and ROLL on the network *)
Lemma step_pick E c bs after w mr a x co m' : c = OP_PICK \/ c = OP_ROLL -> forallb (fun b => b) x = true -> Spec_Network.step E bs (Exec (opcode_u8 c)) after (Machine (w :: mr) a x co) = Some m' ->
  exists y, 0 <= script_num w /\ nth_error mr (Z.to_nat (script_num w)) = Some y /\ m' = Machine (y :: if opcode_eqb c OP_ROLL then remove_nth (Z.to_nat (script_num w)) mr else mr) a x co.
Proof.
  intros Hc A H. destruct Hc; subst c; cbv beta iota delta [Spec_Network.step opcode_u8 Spec_Network.active m_exec] in H; rewrite A in H; cbn [negb] in H; cbv beta iota delta [never existsb] in H; cbn [Z.eqb Pos.eqb orb] in H.
  - destruct (main_op E co 121 (w :: mr)) as [t|] eqn:MO; [|discriminate H]. cbn [option_map] in H. apply Some_inj in H. subst m'. cbn [main_op] in MO. destruct (num w) as [z|] eqn:N; [|discriminate MO]. apply num_some in N. destruct N as (_ & _ & <-). destruct (Z.leb_spec 0 (script_num w)); [|discriminate MO].
    destruct (nth_error mr _) as [y|] eqn:Y; [|discriminate MO]. cbn [option_map] in MO. apply Some_inj in MO. subst t. exists y. auto.
  - destruct (main_op E co 122 (w :: mr)) as [t|] eqn:MO; [|discriminate H]. cbn [option_map] in H. apply Some_inj in H. subst m'. cbn [main_op] in MO. destruct (num w) as [z|] eqn:N; [|discriminate MO]. apply num_some in N. destruct N as (_ & _ & <-). destruct (Z.leb_spec 0 (script_num w)); [|discriminate MO].
    destruct (nth_error mr _) as [y|] eqn:Y; [|discriminate MO]. cbn [option_map] in MO. apply Some_inj in MO. subst t. exists y. split; [assumption|]. split; [reflexivity|]. change (opcode_eqb OP_ROLL OP_ROLL) with true. cbv iota. do 2 f_equal.
    apply nth_error_split in Y. destruct Y as (above & below & -> & L). rewrite <- L, remove_nth_app. rewrite firstn_app, Nat.sub_diag, firstn_all, skipn_app, (skipn_all2 above) by lia. replace (S (length above) - length above)%nat with 1%nat by lia. cbn [firstn skipn app]. now rewrite app_nil_r.
Qed.
Lemma pick_typed E G G' c o g g' code lines k v s main alt : c = OP_PICK \/ c = OP_ROLL ->
  (do (d, g1) <- tg_pop false g; do _ <- verify_item_name o (t_item d);
   do depth <- match it_integer (t_item d) with Some k => if k <? 0 then Err (EMsg 21) else Ok (Z.to_nat k) | None => Ok O end;
   do (i, vs) <- tv_pick_roll depth (opcode_eqb c OP_ROLL) (tg_vs g1); do i' <- tupdate_item_name o i;
   Ok (tg_push false i' (TGen vs (tg_n g1)), [Emitted (EmCode c) [name_tokens (t_item i')] [] (SOpcode o)], [LUse c (t_ident d)])) = Ok (g', code, lines) -> check_lines G lines = Some G' ->
  tagree_at G false 0 g -> (forall s i d, tpossible g s -> nth_error (ts_stack s) 0 = Some i -> it_integer (t_item i) = Some d -> tagree_at G false (S (Z.to_nat d)) g) ->
  (forall s i, tpossible g s -> nth_error (ts_stack s) 0 = Some i -> exists d, it_integer (t_item i) = Some d) ->
  nth_error (tv_states (tg_vs g)) k = Some (v, s) -> tholds_in (tg_vs g) s -> Rt G s main alt -> tleaf E G' g' code k v main alt.
Proof.
  intros Hc E0 C Ha Had Hkn Hk Hh (R1 & R2). destruct (tg_pop false g) as [[d g1]| |] eqn:Ep; try discriminate. cbn [obind] in E0. destruct (verify_item_name o (t_item d)); try discriminate. cbn [obind] in E0.
  destruct (tpop_own G _ _ _ _ _ _ _ Ep Ha Hk Hh) as (d0 & rest & Et & Hk1 & Hf). destruct (tpop_spec _ _ _ _ Ep) as (_ & Hat & _ & (sx & rx & Px & Tx) & _). cbn [tthe_stack] in Et, Tx.
  destruct (Hkn sx d Px ltac:(now rewrite Tx)) as (z & Hz). rewrite Hz in E0. destruct (Z.ltb_spec z 0); [discriminate|]. cbn [obind] in E0. destruct (tv_pick_roll (Z.to_nat z) (opcode_eqb c OP_ROLL) (tg_vs g1)) as [[i vs]| |] eqn:Epr; try discriminate. cbn [obind] in E0.
  destruct (tupdate_item_name o i) as [i'| |] eqn:Eu; try discriminate. cbn [obind] in E0. injection E0 as <- <- <-.
  destruct (tpick_spec _ _ _ _ _ Epr) as (Pa & (k2 & v2 & s2 & Hk2 & Hh2 & Hn2) & Pown).
  assert (Hh1 : tholds_in (tg_vs g1) (twith_stack s false rest)) by (unfold tholds_in in *; now rewrite twith_condition, Hat).
  destruct (Pown k v _ Hk1 Hh1) as (i0 & Hi0 & Hkp). destruct s as [sc ss sa]. cbn [twith_stack ts_stack ts_condition ts_alt] in *. subst ss.
  assert (Hz0 : it_integer (t_item d0) = Some z) by (now apply (proj2 Hf)).
  assert (Hposs : tpossible g (TState sc (d0 :: rest) sa)) by (apply tpossible_nth; exists k, v; auto).
  assert (Hf2 : fits G i0 i).
  { pose proof (tpop_agree _ _ _ _ _ _ Ep (Had _ d0 z Hposs eq_refl Hz0)) as Hag. apply (Hag (TState sc rest sa) s2); [apply tpossible_nth; exists k, v; auto|apply tpossible_nth; exists k2, v2; auto|exact Hi0|exact Hn2]. }
  apply Forall2_cons_l in R1. destruct R1 as (w & mr & -> & Hw & Hr). destruct (Forall2_nth _ _ _ _ _ Hr Hi0) as (u & Hu & Hut). pose proof (update_typed _ _ _ _ _ Eu (item_fits _ _ _ _ Hf2 Hut)) as Hi'. pose proof (item_fits _ _ _ _ Hf Hw) as Hwd.
  cbn [check_lines check_line] in C. destruct (lookup G (t_ident d)) as [t|] eqn:Lt; [|discriminate]. destruct (apply_mock c [t]) as [rs|] eqn:Am; [|discriminate]. injection C as <-. apply apply_mock_iff in Am.
  assert (Hsw : script_num w = z) by (destruct Hw as (_ & Hv); now apply Hv).
  eexists. split; [apply push_own'; [exact Hkp|]|].
  { unfold tholds_in in *. cbn [tg_vs]. rewrite Pa. destruct (opcode_eqb c OP_ROLL); exact Hh1. }
  right. eexists. split; [reflexivity|]. cbn [em_op]. split; [destruct Hc; subst; intros [H0|[H0|H0]]; discriminate H0|]. split.
  - intros ex co c' Hc'. injection Hc' as <-. exists [t], rs, [w], mr. split; [exact Am|]. split; [destruct Hc; subst; reflexivity|]. constructor; [|constructor]. destruct Hwd as ((t' & Lt' & Ht') & _). congruence.
  - intros ex co bs j after m' Hex _ Hm Hst. unfold op_of in Hm. cbn [em_op] in Hm. destruct (means_code _ _ Hm) as [[K _]|[_ ->]]; [destruct Hc; subst; discriminate K|]. apply (step_pick E c) in Hst; [|exact Hc|exact Hex]. destruct Hst as (y & _ & Hy & ->). rewrite Hsw in Hy |- *. assert (y = u) by congruence. subst y.
    eexists _, _, _. split; [reflexivity|]. destruct (opcode_eqb c OP_ROLL); cbn; (split; [|exact R2]); (constructor; [exact Hi'|]); [now apply Forall2_remove|exact Hr].
Qed.
(** A pushed variable *)
Lemma let_typed E G G' x t gen n src o g k v s main alt i pd : check_lines G [LLet x t] = Some G' -> raises G G' -> i = TItem (Item x gen n) x ->
  nth_error (tv_states (tg_vs g)) k = Some (v, s) -> tholds_in (tg_vs g) s -> Rt G s main alt -> (forall c, o <> EmCode c) ->
  (forall d t', pushes (Emitted o pd [] src) -> means (op_of (Emitted o pd [] src)) (Push d) -> t = Some t' -> has t' d /\ forall z, n = Some z -> script_num d = z) ->
  (forall j, pushes (Emitted o pd [] src) -> means (op_of (Emitted o pd [] src)) j -> exists d, j = Push d) ->
  tleaf E G' (tg_push false i g) [Emitted o pd [] src] k v main alt.
Proof.
  intros C R -> Hk Hh HR NC HP HJ. cbn [check_lines check_line] in C. destruct t as [t|]; [|discriminate]. injection C as C. eexists. split; [apply push_own'; [exact Hk|exact Hh]|]. right. eexists. split; [reflexivity|]. cbn [em_op].
  split; [intros [H|[H|H]]; now apply NC in H|]. split; [intros ex co c Hc; now apply NC in Hc|].
  intros ex co bs j after m' Hex Hp Hm Hst. destruct (HJ j Hp Hm) as (d & ->). destruct (HP d t Hp Hm eq_refl) as (P1 & P2). apply step_push_inv in Hst. rewrite Hex in Hst. subst m'. eexists _, _, _. split; [reflexivity|].
  apply (Rt_raised _ _ _ _ _ R) in HR. destruct HR as (A & B). destruct s as [sc ss sa]. cbn in *. split; [|exact B]. constructor; [|exact A]. split; [exists t; split; [|exact P1]; subst G'; cbn; now rewrite String.eqb_refl|exact P2].
Qed.
Lemma push_typed E G G' e n g g' code lines k v s main alt : trun_push e n g = Ok (g', code, lines) -> check_lines G lines = Some G' -> raises G G' ->
  nth_error (tv_states (tg_vs g)) k = Some (v, s) -> tholds_in (tg_vs g) s -> Rt G s main alt -> tleaf E G' g' code k v main alt.
Proof.
  intros E0 C R Hk Hh HR. unfold trun_push in E0.
  assert (P1 : forall pd src d t', pushes (Emitted (EmPush e) pd [] src) -> means (op_of (Emitted (EmPush e) pd [] src)) (Push d) -> push_type e = Some t' -> has t' d /\ forall z : Z, None = Some z -> script_num d = z).
  { intros pd src d t' _ Hm Ht. split; [|intros z Hz; discriminate Hz]. unfold op_of in Hm. cbn [em_op] in Hm. destruct e; try discriminate Ht; injection Ht as <-; inversion Hm; subst; cbn [has]; auto. }
  assert (P2 : forall pd src j, pushes (Emitted (EmPush e) pd [] src) -> means (op_of (Emitted (EmPush e) pd [] src)) j -> exists d, j = Push d).
  { intros pd src j (_ & Hp) Hm. unfold op_of in Hm. cbn [em_op] in Hm. destruct e; try contradiction; inversion Hm; subst; eauto. }
  destruct n as [n|]; cbn [tmake_ident] in E0; injection E0 as <- <- <-; eapply let_typed; try eassumption; try reflexivity; try (intros c Hc; discriminate Hc); [apply P1|apply P2|apply P1|apply P2].
Qed.
Lemma depth_typed E G G' o x g g' code lines k v s main alt : trun_depth_of o g x 0 = Ok (g', code, lines) -> check_lines G lines = Some G' -> raises G G' ->
  nth_error (tv_states (tg_vs g)) k = Some (v, s) -> tholds_in (tg_vs g) s -> Rt G s main alt -> tleaf E G' g' code k v main alt.
Proof.
  intros E0 C R Hk Hh HR. unfold trun_depth_of in E0. destruct (tv_find x (tg_vs g)) as [[depth i0]| |]; try discriminate. cbn [obind] in E0.
  assert (P1 : forall z pd src d t', pushes (Emitted (EmNumber (z + 0)) pd [] src) -> means (op_of (Emitted (EmNumber (z + 0)) pd [] src)) (Push d) -> Some RInt = Some t' -> has t' d /\ forall z', Some z = Some z' -> script_num d = z').
  { intros z pd src d t' _ Hm Ht. injection Ht as <-. unfold op_of in Hm. cbn [em_op] in Hm. inversion Hm; subst. split; [assumption|]. intros z' Hz. injection Hz as <-. lia. }
  assert (P2 : forall z pd src j, pushes (Emitted (EmNumber z) pd [] src) -> means (op_of (Emitted (EmNumber z) pd [] src)) j -> exists d, j = Push d).
  { intros z pd src j _ Hm. unfold op_of in Hm. cbn [em_op] in Hm. inversion Hm; subst; eauto. }
  destruct (integer_new (Z.of_nat depth)) as [z| |] eqn:Ei; [|destruct (os_outputs o) as [[|n [|]]|]; discriminate E0|destruct (os_outputs o) as [[|n [|]]|]; discriminate E0].
  destruct (os_outputs o) as [[|n [|]]|]; cbn [tmake_ident obind] in E0; injection E0 as <- <- <-; eapply let_typed; try eassumption; try reflexivity; try (intros c Hc; discriminate Hc); first [apply P1 | apply P2].
Qed.
