From Verif Require Import Base BaseLemmas Spec_Encoding Model_ByteArray Proofs_ByteArray Model_Opcode Model_Script Model_Behavior Model_Macro Spec_Script Proofs_Script Spec_Macro Proofs_Macro Proofs_Macro2 Proofs_Macro3 Proofs_Macro4 Proofs_Macro5 Proofs_Macro6 Proofs_Macro7 Proofs_Macro8
  Spec_Network Proofs_Network Proofs_Network2 Proofs_Network3 Proofs_Behavior Spec_MacroRun.
Local Open Scope list_scope.
Local Open Scope Z_scope.

Lemma truthy_truth v : truthy v = truth v.
Proof. unfold truthy. induction v as [|b [|c r] IH]; [reflexivity|cbn; now rewrite negb_orb|]. change (truth (b :: c :: r)) with (negb (b =? 0) || truth (c :: r)). rewrite <- IH. reflexivity. Qed.
Lemma relabel_values names : forall s, map r_value (relabel names s) = map r_value s.
Proof. induction names as [|n ns IH]; intros [|i r]; cbn; try reflexivity. rewrite IH. destruct (String.eqb n "__"); reflexivity. Qed.

Lemma map_cons_inv {A B} (f : A -> B) l y ys : map f l = y :: ys -> exists x xs, l = x :: xs /\ f x = y /\ map f xs = ys.
Proof. destruct l as [|x xs]; intros H; [discriminate H|]. injection H as <- <-. eauto. Qed.

Lemma shuffle_real E co c s t : is_shuffle c = true -> main_op E co (opcode_u8 c) (map r_value s) = Some t -> exists s', shuffle c s = Some s' /\ map r_value s' = t.
Proof.
  intros H M. destruct c; try discriminate H;
    do 7 (try (destruct s as [|?x s]; cbn [map main_op opcode_u8] in M; [discriminate M|])); try (injection M as <-; eexists; split; [reflexivity|reflexivity]).
Qed.

Definition is_constant (c : opcode) : bool := match c with OP_0 | OP_1NEGATE | OP_1 | OP_2 | OP_3 | OP_4 | OP_5 | OP_6 | OP_7 | OP_8 | OP_9 | OP_10 | OP_11 | OP_12 | OP_13 | OP_14 | OP_15 | OP_16 => true | _ => false end.

Lemma made0 {A} (used rest : list A) n : length used = n -> exists u r made, used ++ rest = u ++ r /\ rest = made ++ r /\ length u = n /\ length made = 0%nat.
Proof. intros L. exists used, rest, []. auto. Qed.
Lemma made1 {A} (used rest : list A) n v : length used = n -> exists u r made, used ++ rest = u ++ r /\ v :: rest = made ++ r /\ length u = n /\ length made = 1%nat.
Proof. intros L. exists used, rest, [v]. auto. Qed.
Lemma compute_real E co c n m s t : arity c = Some (n, m) -> is_constant c = false -> main_op E co (opcode_u8 c) s = Some t ->
  exists used rest made, s = used ++ rest /\ t = made ++ rest /\ length used = n /\ length made = m.
Proof.
  intros A K M.
  assert (C : exists used rest, s = used ++ rest /\ length used = n).
  { destruct (arity_table _ _ _ A) as (b & B & L & _). exists (firstn n s), (skipn n s). split; [symmetry; apply firstn_skipn|]. apply firstn_length_le. destruct (Nat.le_gt_cases n (length s)) as [H|H]; [exact H|exfalso].
    rewrite <- L in H. assert (OT : Spec_Behavior.on_top c = true) by (destruct c; try discriminate A; try discriminate K; reflexivity). rewrite (too_few E c b co s B OT H) in M. discriminate M. }
  destruct C as (used & rest & -> & L).
  destruct c; try discriminate A; try discriminate K; injection A as <- <-; try discriminate M;
    do 4 (try (destruct used as [|?x used]; cbn [length] in L; try discriminate L)); cbn [app main_op opcode_u8] in M;
    repeat match type of M with
    | verify_top (option_map _ _) = _ => apply verify_omap in M; subst t
    | verify_top (test2 _ _) = _ => unfold test2 in M
    | verify_top (binary _ _) = _ => let B := fresh "B" in destruct (binary _ _) eqn:B in M; [|discriminate M]; apply binary_inv in B; destruct B as (? & ? & ? & _ & _ & _ & ->)
    | verify_top _ = _ => apply verify_inv in M; subst t
    | nums _ _ = _ => unfold nums in M
    | nums2 _ _ = _ => unfold nums2 in M
    | test2 _ _ = _ => unfold test2 in M
    | bitwise _ _ = _ => unfold bitwise in M
    | unary _ _ = _ => apply unary_inv in M; destruct M as (? & ? & _ & _ & ->)
    | binary _ _ = _ => apply binary_inv in M; destruct M as (? & ? & ? & _ & _ & _ & ->)
    | (if ?q then _ else _) = _ => destruct q; [|discriminate M]
    | option_map _ ?o = _ => destruct o; [|discriminate M]; cbn [option_map] in M
    | (let _ := _ in _) = _ => cbv zeta in M
    | match num ?v with _ => _ end = _ => destruct (num v); [|discriminate M]
    | Some _ = Some _ => apply Some_inj in M; subst t
    end;
    match goal with |- exists _ _ _, ?l = _ /\ ?r = _ /\ _ => first [exists [], r, []; now repeat split | exists [], l; eexists [_]; now repeat split | exists [x], rest; eexists [_]; now repeat split | exists [x], rest, []; now repeat split | exists [x; x0], rest; eexists [_]; now repeat split
     | exists [x; x0], rest; eexists [_; _]; now repeat split  | exists [x; x0], rest, []; now repeat split | exists [x; x0; x1], rest; eexists [_]; now repeat split | exists [x; x0; x1], rest, []; now repeat split] end.
Qed.

Lemma means_code k i : means (OCode k) i -> (is_constant k = true /\ exists d, i = Push d) \/ (is_constant k = false /\ i = Exec (opcode_u8 k)).
Proof.
  intros H. inversion H; subst.
  - left. split; [reflexivity|eauto].
  - left. split; [reflexivity|eauto].
  - left. split; [|eauto]. destruct k; cbn [opcode_u8 is_constant] in *; try reflexivity; lia.
  - right. split; [|reflexivity]. destruct k; cbn [opcode_u8 is_constant] in *; try reflexivity; lia.
Qed.
(** A push as a step. *)
Lemma step_push_inv E bs d after s a x co m' : Spec_Network.step E bs (Push d) after (Machine s a x co) = Some m' ->
  m' = if forallb (fun b => b) x then Machine (d :: s) a x co else Machine s a x co.
Proof.
  cbn [Spec_Network.step]. destruct (MAX_ELEMENT <? zlen d); [discriminate|]. unfold Spec_Network.active. cbn [m_exec]. destruct (forallb (fun b => b) x); cbn [negb]; [|intros H; now injection H].
  destruct (hd 0 bs =? push_head d); [|discriminate]. intros H. now injection H.
Qed.
(** An opcode in a branch that is not taken. *)
Lemma step_skipped E bs k after s a x co m' : func_exists k = true -> k <> OP_IF -> k <> OP_ELSE -> k <> OP_ENDIF -> forallb (fun b => b) x = false ->
  Spec_Network.step E bs (Exec (opcode_u8 k)) after (Machine s a x co) = Some m' -> m' = Machine s a x co.
Proof.
  intros F N1 N2 N3 A H. destruct k; try discriminate F; try contradiction; cbv beta iota delta [Spec_Network.step opcode_u8 Spec_Network.active m_exec] in H; rewrite A in H; cbn in H; now injection H.
Qed.
Lemma not_control k : is_control (EmCode k) -> k = OP_IF \/ k = OP_ELSE \/ k = OP_ENDIF.
Proof. intros [H|[H|H]]; injection H; auto. Qed.

Lemma lift E sigma e bs i after c m m' : (forall k, em_op e = EmCode k -> func_exists k = true) -> pushes e -> means (op_of e) i -> shows c m ->
  Spec_Network.step E bs i after m = Some m' -> (exists c', machine_step sigma e c c' /\ shows c' m') \/ against sigma e c.
Proof.
  intros F P M S H. destruct c as [s a x], m as [ms ma mx co]. destruct S as (S1 & S2 & S3). cbn [c_main c_alt c_exec m_main m_alt m_exec] in S1, S2, S3. subst ms ma mx.
  assert (PU : forall d l s1, i = Push d -> (em_op e = EmCode OP_IF \/ em_op e = EmCode OP_ELSE \/ em_op e = EmCode OP_ENDIF -> False) ->
     op_step e s a (relabel l (s1 :: s)) a -> r_value s1 = d -> exists c', machine_step sigma e (Config s a x) c' /\ shows c' m').
  { intros d l s1 -> NC O V. apply step_push_inv in H. destruct (forallb (fun b => b) x) eqn:A; subst m'.
    - exists (Config (relabel l (s1 :: s)) a x). split; [apply MsOp; assumption|]. split; [cbn [c_main m_main]; rewrite relabel_values; cbn [map]; now rewrite V|]. split; reflexivity.
    - exists (Config s a x). split; [apply MsSkipped; assumption|]. repeat split. }
  destruct (em_op e) as [k|o|n] eqn:EO; unfold op_of in M; rewrite EO in M.
  - specialize (F k eq_refl). destruct (means_code _ _ M) as [[K (d & ->)]|[K ->]].
    + left. apply (PU d (out_names e) (RItem None d)); [reflexivity|intros [Q|[Q|Q]]; injection Q as ->; discriminate K| |reflexivity].
      assert (A : arity k = Some (0, 1)%nat) by (destruct k; try discriminate K; reflexivity). apply (StCompute e k 0 1 [] [RItem None d] s a EO A); repeat constructor.
    + clear PU. destruct (opcode_eqb k OP_IF) eqn:Q1; [apply opcode_eqb_spec in Q1; subst k|].
      { cbv beta iota delta [Spec_Network.step opcode_u8 Spec_Network.active m_exec] in H. destruct (forallb (fun b => b) x) eqn:A; cbn in H.
        - destruct s as [|it s]; cbn [map] in H; [discriminate H|]. injection H as <-. destruct (r_label it) as [n|] eqn:L.
          + destruct (Bool.bool_dec (sigma n) (truth (r_value it))) as [D|D].
            * left. eexists. split; [apply MsIf; [exact EO|exact A|]; intros n' L'; rewrite L in L'; injection L' as <-; now rewrite truthy_truth|]. rewrite truthy_truth. repeat split.
            * right. split; [exact EO|]. split; [exact A|]. exists it, s, n. repeat split; assumption.
          + left. eexists. split; [apply MsIf; [exact EO|exact A|]; intros n' L'; congruence|]. rewrite truthy_truth. repeat split.
        - injection H as <-. left. eexists. split; [apply MsIfSkipped; assumption|]. repeat split. }
      left. destruct (opcode_eqb k OP_ELSE) eqn:Q2; [apply opcode_eqb_spec in Q2; subst k|].
      { cbn in H. destruct x as [|b x]; [discriminate H|]. injection H as <-. eexists. split; [apply MsElse; exact EO|]. repeat split. }
      destruct (opcode_eqb k OP_ENDIF) eqn:Q3; [apply opcode_eqb_spec in Q3; subst k|].
      { cbn in H. destruct x as [|b x]; [discriminate H|]. injection H as <-. eexists. split; [apply MsEndIf; exact EO|]. repeat split. }
      assert (N1 : k <> OP_IF) by (intros ->; discriminate Q1). assert (N2 : k <> OP_ELSE) by (intros ->; discriminate Q2). assert (N3 : k <> OP_ENDIF) by (intros ->; discriminate Q3).
      assert (NC : ~ is_control (em_op e)) by (rewrite EO; intros C; apply not_control in C; tauto).
      destruct (forallb (fun b => b) x) eqn:A; [|exists (Config s a x); split; [apply MsSkipped; assumption|]; apply step_skipped in H; auto; subst m'; repeat split].
      assert (FIN : forall s' a' m1, op_step e s a s' a' -> map r_value s' = m_main m1 -> map r_value a' = m_alt m1 -> m_exec m1 = x -> m' = m1 -> exists c', machine_step sigma e (Config s a x) c' /\ shows c' m').
      { intros s' a' m1 O V1 V2 V3 ->. exists (Config s' a' x). split; [apply MsOp; assumption|]. split; [exact V1|]. split; [exact V2|]. now rewrite V3. }
      destruct (Spec_Behavior.on_top k) eqn:OT.
      * rewrite (step_on_top _ _ _ _ _ _ _ _ OT A) in H. destruct (main_op E co (opcode_u8 k) (map r_value s)) as [t|] eqn:MO; [|discriminate H]. cbn [option_map] in H. apply Some_inj in H. symmetry in H.
        destruct (func_classes k F) as [SH|[(n & m & AR)|SP]].
        -- destruct (shuffle_real _ _ _ _ _ SH MO) as (s' & SS & V). refine (FIN _ _ _ (StShuffle e k s s' a EO SS) _ _ _ H); cbn [m_main m_alt m_exec]; [now rewrite relabel_values|reflexivity|reflexivity].
        -- destruct (compute_real _ _ _ _ _ _ _ AR K MO) as (used & rest & made & US & MD & L1 & L2). apply map_eq_app in US. destruct US as (su & sr & -> & V1 & V2).
           assert (LU : length su = n) by (rewrite <- L1, <- V1; symmetry; apply map_length).
           refine (FIN _ _ _ (StCompute e k n m su (map (RItem None) made) sr a EO AR LU _ _) _ _ _ H); cbn [m_main m_alt m_exec]; try reflexivity; [now rewrite map_length|now apply Forall_map, Forall_forall|].
           rewrite relabel_values, map_app, V2, map_map. cbn [r_value]. rewrite map_id. now symmetry.
        -- destruct SP as [->|[->|[->|[->|[->|[->|[->|[->|[->| ->]]]]]]]]]; try discriminate OT; try contradiction; cbn [main_op opcode_u8] in MO; (destruct s as [|it s]; [discriminate MO|]); cbn [map] in MO.
           ++ injection MO as <-. refine (FIN _ _ _ (StSize e it (enc (zlen (r_value it))) s a EO) _ _ _ H); cbn [m_main m_alt m_exec]; [now rewrite relabel_values|reflexivity|reflexivity].
           ++ destruct (e_locktime E (r_value it)); [|discriminate MO]. injection MO as <-. refine (FIN _ _ _ (StKeep e _ it s a EO _) _ _ _ H); cbn [m_main m_alt m_exec]; [tauto|now rewrite relabel_values|reflexivity|reflexivity].
           ++ destruct (e_sequence E (r_value it)); [|discriminate MO]. injection MO as <-. refine (FIN _ _ _ (StKeep e _ it s a EO _) _ _ _ H); cbn [m_main m_alt m_exec]; [tauto|now rewrite relabel_values|reflexivity|reflexivity].
           ++ destruct (num (r_value it)) as [z|] eqn:N; [|discriminate MO]. destruct (0 <=? z) eqn:Z0; [|discriminate MO]. rewrite nth_error_map in MO. destruct (nth_error s (Z.to_nat z)) as [y|] eqn:Y; [|discriminate MO]. injection MO as <-.
              apply num_some in N. destruct N as (_ & _ & N).
              refine (FIN _ _ _ (StPick e it (Z.to_nat z) y s a EO _ Y) _ _ _ H); cbn [m_main m_alt m_exec]; [lia|now rewrite relabel_values|reflexivity|reflexivity].
      * assert (C : k = OP_TOALTSTACK \/ k = OP_FROMALTSTACK \/ k = OP_ROLL) by (destruct k; try discriminate OT; try discriminate F; try discriminate K; tauto).
        destruct C as [->|[->| ->]]; cbv beta iota delta [Spec_Network.step opcode_u8 Spec_Network.active m_exec] in H; rewrite A in H; cbn [negb] in H.
        -- cbn in H. destruct s as [|it s]; [discriminate H|]. cbn [map] in H. injection H as H. symmetry in H. refine (FIN _ _ _ (StToAlt e it s a EO) _ _ _ H); cbn [m_main m_alt m_exec]; [reflexivity|now rewrite relabel_values|reflexivity].
        -- cbn in H. destruct a as [|it a]; [discriminate H|]. cbn [map] in H. injection H as H. symmetry in H. refine (FIN _ _ _ (StFromAlt e it s a EO) _ _ _ H); cbn [m_main m_alt m_exec]; [now rewrite relabel_values|reflexivity|reflexivity].
        -- cbv beta iota delta [never existsb] in H. change (122 =? _) with false in H. cbn [orb] in H. destruct s as [|it s]; [discriminate H|].
           destruct (main_op E co 122 (map r_value (it :: s))) as [t|] eqn:MO; [|discriminate H]. cbn [option_map] in H. apply Some_inj in H. symmetry in H. cbn [main_op map] in MO.
           destruct (num (r_value it)) as [z|] eqn:N; [|discriminate MO]. destruct (0 <=? z) eqn:Z0; [|discriminate MO]. rewrite nth_error_map in MO. destruct (nth_error s (Z.to_nat z)) as [y|] eqn:Y; [|discriminate MO]. cbn [option_map] in MO. apply Some_inj in MO. subst t.
           apply num_some in N. destruct N as (_ & _ & N). apply nth_error_split in Y. destruct Y as (above & below & -> & L).
           refine (FIN _ _ _ (StRoll e it below y above a EO _) _ _ _ H); cbn [m_main m_alt m_exec]; [lia| |reflexivity|reflexivity].
           rewrite relabel_values, <- L. cbn [map]. f_equal. rewrite !map_app. cbn [map]. rewrite <- (map_length r_value above). rewrite firstn_app, Nat.sub_diag, firstn_all, skipn_app. rewrite (skipn_all2 (map r_value above)) by lia.
           replace (S (length (map r_value above)) - length (map r_value above))%nat with 1%nat by lia. cbn [firstn skipn app]. now rewrite app_nil_r.
  - left. destruct o as [k|b|ar mi|b|n]; unfold pushes in P; rewrite EO in P; destruct P as [_ P]; try contradiction; inversion M; subst i;
    (eapply (PU _ [] (RItem (match em_src e with SPush _ n => n | _ => None end) _)); [reflexivity|intros [Q|[Q|Q]]; discriminate Q|eapply StPush; exact EO|reflexivity]).
  - left. inversion M; subst i. eapply (PU _ (out_names e) (RItem None _)); [reflexivity|intros [Q|[Q|Q]]; discriminate Q|eapply StNumber; [exact EO|eassumption]|reflexivity].
Qed.

(** Every opcode the macro emits has a mock function. *)
Definition real_code (e : emitted) : Prop := forall k, em_op e = EmCode k -> func_exists k = true.
Lemma opcode_real o g g' code : run_opcode o g = Ok (g', code) -> Forall real_code code.
Proof.
  intros E. destruct (opcode_code _ _ _ _ E) as [->|(e & -> & Hsrc & H)]; [constructor|]. constructor; [|constructor]. intros k Hk. destruct H as [(c & Hc & He)|(n & Hn)]; [|congruence]. rewrite Hk in He. injection He as <-.
  unfold run_opcode in E. rewrite Hc in E.
  assert (D : run_other_opcode k o g = Ok (g', [e]) \/ k = OP_TOALTSTACK \/ k = OP_FROMALTSTACK \/ k = OP_PICK \/ k = OP_ROLL) by (destruct k; auto).
  destruct D as [D|[->|[->|[->| ->]]]]; try reflexivity. unfold run_other_opcode in D.
  repeat (match type of D with
      | obind ?x _ = _ => destruct x as [?| |]; try discriminate D; cbn [obind] in D
      | (let (_, _) := ?x in _) = _ => destruct x
      | (if ?x then _ else _) = _ => destruct x eqn:?; try discriminate D end). reflexivity.
Qed.
Lemma stmt_real s : forall g g' code, run_stmt s g = Ok (g', code) -> Forall real_code code.
Proof.
  induction s as [e n|o|b|a b|i t e es en IHt IHe] using stmt_ind'; intros g g' code E; try discriminate.
  - cbn [run_stmt] in E. unfold run_push in E. destruct n; cbn [make_ident] in E; injection E as <- <-; (constructor; [intros k H; discriminate H|constructor]).
  - exact (opcode_real _ _ _ _ E).
  - assert (HL : forall l, Forall (fun s => forall g g' code, run_stmt s g = Ok (g', code) -> Forall real_code code) l -> forall g g' code, run_stmts l g = Ok (g', code) -> Forall real_code code).
    { induction 1 as [|s l Hs _ IH]; intros g1 g1' c1 E1; [injection E1 as <- <-; constructor|]. rewrite run_stmts_cons in E1. destruct (run_stmt s g1) as [[g2 c2]| |] eqn:E2; try discriminate. cbn [obind] in E1. destruct (run_stmts l g2) as [[g3 c3]| |] eqn:E3; try discriminate. cbn [obind] in E1. injection E1 as <- <-. apply Forall_app. split; eauto. }
    rewrite run_if_eq in E. destruct (run_opcode i g) as [[g0 c0]| |] eqn:E0; try discriminate. cbn [obind] in E. destruct (if_variable i) as [var|]; [|discriminate].
    destruct (run_stmts t _) as [[g1 c1]| |] eqn:E1; try discriminate. cbn [obind] in E. destruct (match e with Some o => run_opcode o g1 | None => Ok (g1, []) end) as [[g2 c2]| |] eqn:E2; try discriminate. cbn [obind] in E.
    destruct (run_stmts es _) as [[g3 c3]| |] eqn:E3; try discriminate. cbn [obind] in E. destruct (run_opcode en g3) as [[g4 c4]| |] eqn:E4; try discriminate. cbn [obind] in E. injection E as <- <-.
    apply opcode_real in E0, E4. apply (HL t IHt) in E1. apply (HL es IHe) in E3. assert (H2 : Forall real_code c2). { destruct e; [now apply opcode_real in E2|injection E2 as <- <-; constructor]. }
    rewrite !Forall_app. repeat split; assumption.
Qed.
Lemma stmts_real l : forall g g' code, run_stmts l g = Ok (g', code) -> Forall real_code code.
Proof.
  induction l as [|s l IH]; intros g1 g1' c1 E1; [injection E1 as <- <-; constructor|]. rewrite run_stmts_cons in E1. destruct (run_stmt s g1) as [[g2 c2]| |] eqn:E2; try discriminate. cbn [obind] in E1. destruct (run_stmts l g2) as [[g3 c3]| |] eqn:E3; try discriminate. cbn [obind] in E1. injection E1 as <- <-. apply Forall_app. split; [eapply stmt_real; eassumption|eapply IH; eassumption].
Qed.
Lemma script_real m g code : run_script m = Ok (g, code) -> Forall real_code code.
Proof.
  unfold run_script. intros E. destruct (run_inputs (has_variants m) (ms_inputs m) (VStates (initial_states m) [])) as [vs| |]; try discriminate. cbn [obind] in E. eapply stmts_real; eassumption.
Qed.

Lemma lift_run E sigma x y : visits E x y -> forall code c, Forall real_code code -> Forall pushes code -> codes code (fst x) -> shows c (snd x) ->
  (exists code' c', reaches sigma (code, c) (code', c') /\ codes code' (fst y) /\ shows c' (snd y)) \/
  (exists e code' c' z, reaches sigma (code, c) (e :: code', c') /\ visits E x z /\ codes (e :: code') (fst z) /\ shows c' (snd z) /\ against sigma e c').
Proof.
  induction 1 as [x|bs i r m m' y H F V IH]; intros code c RC PC CC S.
  - left. exists code, c. split; [constructor|]. auto.
  - cbn [fst snd] in *. inversion CC as [|e ? code0 ? [Ck Me] CC']; subst. cbn [fst snd] in Ck, Me. inversion RC; subst. inversion PC; subst.
    destruct (lift E sigma e bs i _ c m m' ltac:(assumption) ltac:(assumption) Me S H) as [(c1 & MS & S1)|AG].
    + destruct (IH code0 c1 ltac:(assumption) ltac:(assumption) CC' S1) as [(code' & c' & R & C & S')|(e' & code' & c' & z & R & V' & C & S' & AG)].
      * left. exists code', c'. split; [econstructor; eassumption|]. auto.
      * right. exists e', code', c', z. split; [econstructor; eassumption|]. split; [econstructor; eassumption|]. auto.
    + right. exists e, code0, c, ((bs, i) :: r, m). split; [constructor|]. split; [constructor|]. auto.
Qed.
Lemma steps_visits E l : forall m m', steps E l m = Some m' <-> visits E (l, m) ([], m').
Proof.
  induction l as [|[bs i] r IH]; intros m m'; cbn [steps].
  - split; [intros H; injection H as <-; constructor|intros H; inversion H; reflexivity].
  - split.
    + destruct (Spec_Network.step E bs i _ m) as [m1|] eqn:S; [|discriminate]. destruct (stack_fits m1) eqn:F; [|discriminate]. intros H. econstructor; [exact S|exact F|]. now apply IH.
    + intros H. inversion H as [|? ? ? ? m1 ? S F V]; subst. rewrite S, F. now apply IH.
Qed.
Lemma code_op_ok e : real_code e -> pushes e -> op_ok (op_of e).
Proof.
  unfold real_code, pushes, op_of. destruct (em_op e) as [k|o|n]; intros R P; [|tauto|exact P]. specialize (R k eq_refl). cbn. repeat split; intros ->; discriminate R.
Qed.
(** The bytes of the generated script are those instructions. *)
Lemma script_codes code bs : Forall real_code code -> Forall pushes code -> serialize_ops (map op_of code) = Ok bs -> exists l, decodes (ba_data bs) l /\ codes code l /\ bytes_ok (ba_data bs).
Proof.
  intros R P S. assert (O : Forall op_ok (map op_of code)). { apply Forall_map. rewrite Forall_forall in *. intros e I. apply code_op_ok; auto. }
  destruct (ser_ops_ok _ O) as (a & ch & is & S' & D & FC & FM & _ & B). rewrite S in S'. apply Ok_inj in S'. subst a. exists (combine ch is).
  assert (L : length ch = length is) by (eapply Forall2_length; exact FC).
  split; [|split; [|exact B]].
  - split; [rewrite D; f_equal|]. { clear -L. revert is L. induction ch as [|c ch IH]; intros [|i is] L; cbn in *; try discriminate; try reflexivity. f_equal. apply IH. lia. }
    clear -FC. induction FC; cbn; constructor; auto.
  - unfold codes. clear -FC FM. revert ch FC. remember (map op_of code) as ops eqn:Q. revert code Q. induction FM as [|o i ops is M _ IH]; intros code Q ch FC.
    + symmetry in Q. apply map_eq_nil in Q. subst code. inversion FC. constructor.
    + destruct code as [|e code]; [discriminate Q|]. cbn [map] in Q. apply (f_equal (fun l => (hd o l, tl l))) in Q. cbn [hd tl] in Q. assert (Q1 := f_equal fst Q). assert (Q2 := f_equal snd Q). cbn [fst snd] in Q1, Q2. subst o. inversion FC; subst. cbn [combine].
      constructor; [cbn; auto|]. apply IH; auto.
Qed.
