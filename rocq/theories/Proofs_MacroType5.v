(** Lemmas for C57: one opcode statement, from the view of one possible variant. *)
From Verif Require Import Base BaseLemmas Spec_Encoding Model_Integer Model_ByteArray Model_Opcode Model_Script Model_Behavior Model_Macro Spec_Script Spec_Macro Proofs_Integer Proofs_Script Proofs_Macro Proofs_Macro2 Proofs_Macro3 Proofs_Macro4 Proofs_Macro5 Proofs_Macro6
  Spec_Network Proofs_Network Proofs_Network2 Spec_Behavior Proofs_Behavior Spec_MacroRun Proofs_MacroRun Model_Mock Model_MacroType Spec_MacroType Proofs_MacroType Proofs_MacroType2 Proofs_MacroType3 Proofs_MacroType4.
Local Open Scope string_scope.
Local Open Scope list_scope.
Local Open Scope Z_scope.

Definition Rt (G : tyenv) (s : tstate) (main alt : list (list Z)) : Prop := Forall2 (item_typed G) (ts_stack s) main /\ Forall2 (item_typed G) (ts_alt s) alt.
Lemma Rt_raised G G' s main alt : raises G G' -> Rt G s main alt -> Rt G' s main alt.
Proof. intros R (A & B). split; eapply items_raised; eassumption. Qed.
Lemma F2_app_l {A B} (P : A -> B -> Prop) a : forall b l, Forall2 P (a ++ b) l -> exists x y, l = x ++ y /\ Forall2 P a x /\ Forall2 P b y.
Proof. intros b l H. apply Forall2_app_inv_l in H. destruct H as (x & y & A1 & A2 & ->). exists x, y. auto. Qed.
Lemma F2_map_l {A B C} (f : A -> B) (P : B -> C -> Prop) l : forall l', Forall2 P (map f l) l' <-> Forall2 (fun x => P (f x)) l l'.
Proof. induction l as [|x l IH]; intros l'; cbn [map]; split; intros H; inversion H; subst; constructor; auto; now apply IH. Qed.
Lemma typed_has G ins : forall vins ts, Forall2 (item_typed G) ins vins -> Forall2 (fun x t => lookup G x = Some t) (map t_ident ins) ts -> Forall2 has ts vins.
Proof.
  induction ins as [|i ins IH]; intros vins ts A B; cbn [map] in B; inversion A; subst; inversion B; subst; constructor; auto. match goal with H : item_typed _ _ _ |- _ => destruct H as ((t & L & H) & _) end. congruence.
Qed.
Lemma tother_core G G' c o g g' code lines k v s main alt :
  trun_other_opcode c o g = Ok (g', code, lines) -> check_lines G lines = Some G' -> raises G G' -> (forall b j, opcode_behavior c = Ok b -> (j < length (b_input_types b))%nat -> tagree_at G false j g) ->
  nth_error (tv_states (tg_vs g)) k = Some (v, s) -> tholds_in (tg_vs g) s -> Rt G s main alt ->
  exists b ins pushed own vins rest mrest ts rs g1 g2, opcode_behavior c = Ok b /\ length ins = length (b_input_types b) /\ ts_stack s = own ++ rest /\ Forall2 (fits G) own (rev ins) /\ Forall2 (item_typed G) ins vins /\ main = rev vins ++ mrest /\
    signature c ts rs /\ Forall2 has ts vins /\ func_exists c = true /\ code = [Emitted (EmCode c) (map (fun i => name_tokens (t_item i)) pushed) [] (SOpcode o)] /\ tmade_outputs c o b ins g1 = Ok (pushed, g2) /\
    nth_error (tv_states (tg_vs g')) k = Some (v, twith_stack s false (rev pushed ++ rest)) /\ Forall2 (item_typed G') rest mrest /\ Forall2 (fun p t => lookup G' (t_ident p) = Some t) pushed rs /\ Forall2 (item_typed G') (ts_alt s) alt /\
    (pushed = [] -> G' = G).
Proof.
  intros E C R Ha Hk Hh (R1 & R2). unfold trun_other_opcode in E. destruct (opcode_behavior c) as [b| |] eqn:B; try discriminate. cbn [obind] in E. destruct (tpop_n (length (b_input_types b)) g []) as [[ins g1]| |] eqn:Ep; try discriminate. cbn [obind] in E.
  match type of E with obind ?x _ = _ => destruct x as [[]| |]; try discriminate end. cbn [obind] in E. destruct (tmade_outputs c o b ins g1) as [[pushed g2]| |] eqn:Em; try discriminate. cbn [obind] in E. destruct (func_exists c) eqn:Ef; [|discriminate]. injection E as <- <- <-.
  destruct (tpop_n_own G _ _ _ _ _ Ep (fun j Hj => Ha b j eq_refl Hj)) as (_ & Hat & new & Hins & Hln & Hown). rewrite app_nil_r in Hins. subst ins. destruct (Hown k v s Hk Hh) as (own & rest & Es & HF & Hk1). rewrite Es in R1. apply F2_app_l in R1. destruct R1 as (mown & mrest & -> & T1 & T2).
  destruct (tmade_idents _ _ _ _ _ _ _ Em) as (ND & Hvs). cbn [check_lines check_line] in C. destruct (lookup_all G (map t_ident (rev new))) as [ts|] eqn:La; [|discriminate]. destruct (apply_mock c ts) as [rs|] eqn:Am; [|discriminate]. apply apply_mock_iff in Am. apply lookup_all_spec in La.
  destruct (bind_all (map t_ident pushed) rs G) as [G1|] eqn:Bi; [|discriminate]. injection C as ->.
  assert (T : Forall2 (item_typed G) (rev new) (rev mown)) by (apply Forall2_rev; eapply items_fit; eassumption).
  exists b, (rev new), pushed, own, (rev mown), rest, mrest, ts, rs, g1, g2. split; [reflexivity|]. split; [now rewrite rev_length|]. split; [exact Es|]. split; [now rewrite rev_involutive|]. split; [exact T|]. split; [now rewrite rev_involutive|]. split; [exact Am|]. split; [eapply typed_has; eassumption|]. split; [reflexivity|]. split; [reflexivity|]. split; [exact Em|].
  split; [|split; [eapply items_raised; eassumption|split; [apply (F2_map_l t_ident (fun x t => lookup G' x = Some t)); eapply bind_new; eassumption|split; [eapply items_raised; eassumption|]]]].
  - rewrite (tpushes_own pushed g2 k v (twith_stack s false rest)); [|now rewrite Hvs|unfold tholds_in in *; now rewrite twith_condition, Hvs, Hat]. destruct s; reflexivity.
  - intros ->. cbn [map] in Bi. destruct rs; [|discriminate]. now injection Bi as <-.
Qed.

(** What a statement must achieve. *)
Definition tleaf (E : env) (G' : tyenv) (g' : tgen) (code : list emitted) (k : nat) (v : string) (main alt : list (list Z)) : Prop :=
  exists s', nth_error (tv_states (tg_vs g')) k = Some (v, s') /\
  ((code = [] /\ Rt G' s' main alt) \/
   exists e, code = [e] /\ ~ is_control (em_op e) /\ (forall ex co, operands_typed e (Machine main alt ex co)) /\
     forall ex co bs i after m', forallb (fun b => b) ex = true -> pushes e -> means (op_of e) i -> Spec_Network.step E bs i after (Machine main alt ex co) = Some m' ->
       exists main' alt' co', m' = Machine main' alt' ex co' /\ Rt G' s' main' alt').
Lemma constant_push c d : means (OCode c) (Push d) -> has RInt d.
Proof.
  intros M. inversion M; subst; cbn [has]; [now left|right; exists [], 0x81; split; [reflexivity|]; left; intros H; discriminate H|].
  right. exists [], n. split; [reflexivity|]. left. rewrite Z.mod_small by lia. lia.
Qed.
Lemma constant_table c : is_constant c = true -> opcode_retains_input c = false /\ (forall ts rs, signature c ts rs -> ts = [] /\ rs = [RInt]) /\ exists b, opcode_behavior c = Ok b /\ b_input_types b = [].
Proof.
  intros K. split; [destruct c; try discriminate K; reflexivity|]. split; [|destruct c; try discriminate K; eexists; split; reflexivity].
  intros ts rs (ps & qs & f & M & -> & ->). destruct c; try discriminate K; injection M as <- <-; auto.
Qed.
Lemma pushed_typed G pushed rs outs : Forall2 (fun p t => lookup G (t_ident p) = Some t) pushed rs -> Forall2 has rs outs -> Forall2 valued pushed outs -> Forall2 (item_typed G) pushed outs.
Proof.
  intros A. revert outs. induction A as [|p t pushed rs L _ IH]; intros outs B C; inversion B; subst; inversion C; subst; constructor; auto. split; [eauto|assumption].
Qed.
Lemma sig_retains c ts rs : signature c ts rs -> (opcode_retains_input c = true -> c <> OP_SIZE -> length rs = 1%nat) /\ (c = OP_SIZE -> length rs = 2%nat).
Proof. intros (ps & qs & f & M & -> & ->). split; [intros R N; destruct c; try discriminate R; try contradiction; injection M as <- <-; reflexivity|intros ->; injection M as <- <-; reflexivity]. Qed.
Lemma not_top c : func_exists c = true -> is_constant c = false -> c <> OP_IF -> c <> OP_ELSE -> c <> OP_ENDIF -> c <> OP_TOALTSTACK -> c <> OP_FROMALTSTACK -> c <> OP_ROLL -> on_top c = true.
Proof. intros F K. destruct c; try discriminate F; try discriminate K; try reflexivity; intros; contradiction. Qed.
Lemma other_typed E G G' c o g g' code lines k v s main alt :
  c <> OP_IF -> c <> OP_ELSE -> c <> OP_ENDIF -> c <> OP_TOALTSTACK -> c <> OP_FROMALTSTACK -> c <> OP_PICK -> c <> OP_ROLL ->
  trun_other_opcode c o g = Ok (g', code, lines) -> check_lines G lines = Some G' -> raises G G' -> (forall b j, opcode_behavior c = Ok b -> (j < length (b_input_types b))%nat -> tagree_at G false j g) ->
  (c = OP_SIZE -> (exists x y, os_outputs o = Some [x; y] /\ y <> "__") \/ forall s i, tpossible g s -> nth_error (ts_stack s) 0 = Some i -> it_integer (t_item i) = None) ->
  nth_error (tv_states (tg_vs g)) k = Some (v, s) -> tholds_in (tg_vs g) s -> Rt G s main alt -> tleaf E G' g' code k v main alt.
Proof.
  intros N1 N2 N3 N4 N5 N6 N7 E0 C R Ha Hsz Hk Hh HR. destruct (tother_core _ _ _ _ _ _ _ _ _ _ _ _ _ E0 C R Ha Hk Hh HR) as (b & ins & pushed & own & vins & rest & mrest & ts & rs & g1 & g2 & B & Li & Es & HF & T & -> & Sg & Ht & Ef & -> & Em & Hk' & Tr & Tp & Ta & _).
  eexists. split; [exact Hk'|]. right. eexists. split; [reflexivity|]. cbn [em_op].
  assert (NC : ~ is_control (EmCode c)) by (intros H; apply not_control in H; tauto). split; [exact NC|].
  split. { intros ex co c' Hc'. injection Hc' as <-. exists ts, rs, vins, mrest. split; [exact Sg|]. split; [|exact Ht]. assert (Q : opcode_eqb c OP_FROMALTSTACK = false) by (destruct (opcode_eqb c OP_FROMALTSTACK) eqn:Q; [apply opcode_eqb_spec in Q; contradiction|reflexivity]). now rewrite Q. }
  intros ex co bs i after m' Hex _ Hm Hst. unfold op_of in Hm. cbn [em_op] in Hm.
  assert (SK : size_known c o ins).
  { intros Hc. destruct (Hsz Hc) as [H|H]; [now left|]. right. intros j Hj. subst c. cbn in B. injection B as <-. cbn [b_input_types length] in Li. destruct ins as [|i0 [|]]; try discriminate Li. cbn in Hj. injection Hj as <-. cbn [rev app] in HF. inversion HF as [|x ? own' ? Fx F']; subst. inversion F'; subst. destruct Fx as (_ & Fx).
    destruct (it_integer (t_item i0)) as [z|] eqn:Z0; [|reflexivity]. specialize (Fx z eq_refl). rewrite (H s x) in Fx; [discriminate Fx|apply tpossible_nth; exists k, v; auto|rewrite Es; reflexivity]. }
  assert (FIN : forall outs, Forall2 has rs outs -> ordered c vins outs -> Rt G' (twith_stack s false (rev pushed ++ rest)) (rev outs ++ mrest) alt).
  { intros outs Ho Hord. assert (L1 : length pushed = length rs) by (now apply Forall2_length in Tp). assert (L2 : length rs = length outs) by (now apply Forall2_length in Ho). destruct (sig_retains _ _ _ Sg) as (S1 & S2).
    split; [|destruct s; exact Ta]. destruct s as [sc ss sa]. cbn [twith_stack ts_stack]. apply Forall2_app; [|exact Tr]. apply Forall2_rev. eapply pushed_typed; [exact Tp|exact Ho|]. eapply outputs_valued; try eassumption; [congruence| |]; rewrite <- L2; assumption. }
  destruct (means_code _ _ Hm) as [[K (d & ->)]|[K ->]].
  - apply step_push_inv in Hst. rewrite Hex in Hst. subst m'. destruct (constant_table c K) as (Rt0 & Sc & b' & B' & Bi). destruct (Sc _ _ Sg) as (-> & ->). inversion Ht; subst vins. cbn [rev app]. exists (d :: mrest), alt, co. split; [reflexivity|]. apply (FIN [d]); [constructor; [now apply constant_push in Hm|constructor]|].
    split; [|intros Rx; congruence]. intros _ b0 ord Hb Hord. destruct c; try discriminate K; cbn in Hb; injection Hb as <-; cbn in Hord; discriminate Hord.
  - assert (OT : on_top c = true) by (now apply not_top). rewrite (step_on_top _ _ _ _ _ _ _ _ OT Hex) in Hst. destruct (main_op E co (opcode_u8 c) (rev vins ++ mrest)) as [t|] eqn:MO; [|discriminate Hst]. cbn [option_map] in Hst. apply Some_inj in Hst. subst m'.
    destruct (mock_effect E c co ts rs vins mrest t Sg OT N6 Ht MO) as (outs & -> & Ho & Hord). eexists _, _, _. split; [reflexivity|]. now apply FIN.
Qed.
