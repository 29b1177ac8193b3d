(** Lemmas for C57: the main induction. *)
From Verif Require Import Base BaseLemmas Spec_Encoding Model_Integer Model_ByteArray Model_Opcode Model_Script Model_Behavior Model_Macro Spec_Script Spec_Macro Proofs_Integer Proofs_Script Proofs_Macro Proofs_Macro2 Proofs_Macro3 Proofs_Macro4 Proofs_Macro5 Proofs_Macro6 Proofs_Macro7
  Spec_Network Proofs_Network Proofs_Network2 Spec_Behavior Proofs_Behavior Spec_MacroRun Proofs_MacroRun Model_Mock Model_MacroType Spec_MacroType Proofs_MacroType Proofs_MacroType2 Proofs_MacroType3 Proofs_MacroType4 Proofs_MacroType5 Proofs_MacroType6.
Local Open Scope string_scope.
Local Open Scope list_scope.
Local Open Scope Z_scope.

Section Typed.
Context (type_of : string -> option rty) (E : env) (sigma : valuation).
(** ** One opcode *)
Lemma opcode_typed G G' o g g' code lines k v s main alt : trun_opcode type_of o g = Ok (g', code, lines) -> check_lines G lines = Some G' -> raises G G' -> ~ is_bracket o -> tcoherent o g G ->
  nth_error (tv_states (tg_vs g)) k = Some (v, s) -> tholds_in (tg_vs g) s -> Rt G s main alt -> tleaf E G' g' code k v main alt.
Proof.
  intros E0 C R Hb (Ha & K1 & K2 & K3) Hk Hh HR. unfold trun_opcode in E0. unfold tagree in Ha. destruct (opcode_by_name (os_ident o)) as [c|] eqn:Hc.
  - assert (Hname := by_name_ident _ _ Hc). unfold is_bracket, is_if in Hb. rewrite Hname in Hb, K1, K2.
    assert (c <> OP_IF /\ c <> OP_ELSE /\ c <> OP_ENDIF) as (N1 & N2 & N3). { split; [|split]; intros ->; apply Hb; cbn; auto. }
    destruct (opcode_eqb c OP_TOALTSTACK) eqn:Q1. { apply opcode_eqb_spec in Q1. subst c. destruct (toalt_typed E G _ _ _ _ _ _ _ _ _ _ E0 (Ha _ O eq_refl ltac:(cbn; lia)) Hk Hh HR) as (-> & H). injection C as <-. exact H. }
    destruct (opcode_eqb c OP_FROMALTSTACK) eqn:Q2. { apply opcode_eqb_spec in Q2. subst c. destruct (fromalt_typed E G _ _ _ _ _ _ _ _ _ _ E0 Ha Hk Hh HR) as (-> & H). injection C as <-. exact H. }
    destruct (opcode_eqb c OP_PICK) eqn:Q3. { apply opcode_eqb_spec in Q3. subst c. destruct Ha as (Ha1 & Ha2). apply (pick_typed E G G' OP_PICK o g g' code lines k v s main alt); auto. apply K1. now left. }
    destruct (opcode_eqb c OP_ROLL) eqn:Q4. { apply opcode_eqb_spec in Q4. subst c. destruct Ha as (Ha1 & Ha2). apply (pick_typed E G G' OP_ROLL o g g' code lines k v s main alt); auto. apply K1. now right. }
    assert (c <> OP_TOALTSTACK /\ c <> OP_FROMALTSTACK /\ c <> OP_PICK /\ c <> OP_ROLL) as (N4 & N5 & N6 & N7) by (repeat split; intros ->; discriminate).
    apply (other_typed E G G' c o g g' code lines k v s main alt); auto; [destruct c; congruence || exact E0|destruct c; congruence || exact Ha|]. intros ->. now apply K2.
  - unfold trun_opcode_function in E0. destruct (String.eqb_spec (os_ident o) "depth_of").
    { destruct (os_inputs o) as [[|[x|] [|]]|]; try discriminate E0. eapply depth_typed; eassumption. }
    destruct (String.eqb_spec (os_ident o) "depth_of_offset") as [Ed|].
    { destruct (os_inputs o) as [[|[x|] [|[|t z] [|]]]|] eqn:Ei; try discriminate E0. rewrite (K3 Ed _ t z eq_refl) in E0 by (right; now left). eapply depth_typed; eassumption. }
    destruct (String.eqb (os_ident o) "transmute"); [|discriminate E0].
    assert (g' = g /\ code = []) as (-> & ->).
    { unfold trun_transmute in E0. destruct (os_inputs o) as [[|[x|] [|? [|]]]|]; try discriminate E0. destruct (os_outputs o) as [[|out [|]]|]; repeat match type of E0 with
      | (if ?b then _ else _) = _ => destruct b; [|discriminate E0]
      | obind ?y _ = _ => destruct y as [[? ?]| |]; try discriminate E0; cbn [obind] in E0 end; injection E0 as <- <- <-; auto. }
    exists s. split; [exact Hk|]. left. split; [reflexivity|]. eapply Rt_raised; eassumption.
Qed.

(** ** Brackets *)
Lemma trun_plain c o g g' code lines : c = OP_ELSE \/ c = OP_ENDIF -> os_ident o = opcode_name c -> trun_opcode type_of o g = Ok (g', code, lines) ->
  tg_vs g' = tg_vs g /\ lines = [LCall [] c []] /\ exists e, code = [e] /\ em_op e = EmCode c.
Proof.
  intros Hc Hi E0. unfold trun_opcode in E0. assert (Eb : opcode_by_name (os_ident o) = Some c) by (rewrite Hi; destruct Hc; subst; reflexivity). rewrite Eb in E0.
  assert (E' : trun_other_opcode c o g = Ok (g', code, lines)) by (destruct Hc; subst; exact E0). clear E0. unfold trun_other_opcode in E'.
  assert (Hb : opcode_behavior c = Ok (Behavior [] [] None [])) by (destruct Hc; subst; reflexivity). rewrite Hb in E'. cbn [obind b_input_types b_output_types b_output_order length tpop_n] in E'.
  match type of E' with obind ?x _ = _ => destruct x as [[]| |]; try discriminate end. cbn [obind] in E'. unfold tmade_outputs in E'. cbn [b_output_types b_output_order length] in E'. assert (Hf : func_exists c = true) by (destruct Hc; subst; reflexivity). rewrite Hf in E'.
  destruct (os_outputs o) as [[|x xs]|]; cbn [length Nat.eqb tnamed_outputs tfresh_outputs obind] in E'; try discriminate; injection E' as <- <- <-; (split; [reflexivity|]); (split; [reflexivity|]); eexists; split; reflexivity.
Qed.
Lemma plain_env G G' c : check_lines G [LCall [] c []] = Some G' -> G' = G.
Proof. cbn [check_lines check_line lookup_all]. destruct (apply_mock c []) as [[|r rs]|]; cbn [bind_all]; intros H; try discriminate H. now injection H. Qed.
Lemma trun_if_own G G' o g g' code lines var k v s main alt : is_if o -> trun_opcode type_of o g = Ok (g', code, lines) -> check_lines G lines = Some G' -> raises G G' -> if_variable o = Some var -> tagree o g G ->
  nth_error (tv_states (tg_vs g)) k = Some (v, s) -> tholds_in (tg_vs g) s -> Rt G s main alt ->
  exists e s' w mr, code = [e] /\ em_op e = EmCode OP_IF /\ em_src e = SOpcode o /\ main = w :: mr /\ (forall ex co, operands_typed e (Machine main alt ex co)) /\
    nth_error (tv_states (tg_vs g')) k = Some (v, s') /\ ts_condition s' = ts_condition s /\ Rt G' s' mr alt.
Proof.
  intros Hi E0 C R Hv Ha Hk Hh HR. pose proof (eopcode type_of o g) as Er. rewrite E0 in Er. cbn [emap] in Er. symmetry in Er. unfold eres in Er. cbn [fst snd] in Er. destruct (run_if_code o _ _ _ Hi Er) as (Hn & _). unfold trun_opcode in E0. unfold tagree in Ha. rewrite Hn in E0, Ha.
  destruct (tother_core _ _ _ _ _ _ _ _ _ _ _ _ _ E0 C R Ha Hk Hh HR) as (b & ins & pushed & own & vins & rest & mrest & ts & rs & g1 & g2 & B & Li & Es & HF & T & -> & Sg & Ht & Ef & -> & Em & Hk' & Tr & Tp & Ta & _).
  cbn in B. injection B as <-. cbn [b_input_types length] in Li. destruct ins as [|i0 [|]]; try discriminate Li. inversion T as [|? w ? ? Hw T']; subst. inversion T'; subst. cbn [rev app].
  assert (pushed = []) as ->. { unfold tmade_outputs in Em. cbn [b_output_types b_output_order] in Em. destruct (os_outputs o) as [[|x xs]|]; cbn in Em; try discriminate; now injection Em. }
  eexists _, _, w, mrest. split; [reflexivity|]. split; [reflexivity|]. split; [reflexivity|]. split; [reflexivity|]. split; [|split; [exact Hk'|split; [apply twith_condition|destruct s; split; [exact Tr|exact Ta]]]].
  intros ex co c Hc. injection Hc as <-. exists ts, rs, [w], mrest. split; [exact Sg|]. split; [reflexivity|exact Ht].
Qed.

(** ** Safety *)
Fixpoint tsafe (code : list emitted) (Q : machine -> Prop) (m : machine) : Prop :=
  match code with
  | [] => Q m
  | e :: r => (Spec_Network.active m = true -> operands_typed e m) /\
      (strays sigma e m \/ forall bs i after m', pushes e -> means (op_of e) i -> Spec_Network.step E bs i after m = Some m' -> tsafe r Q m')
  end.
Lemma visits_trans a b c : visits E a b -> visits E b c -> visits E a c.
Proof. induction 1; intros K; [exact K|]. eapply ViStep; eauto. Qed.
Lemma tsafe_visits Q : forall x y, visits E x y -> forall code, tsafe code Q (snd x) -> Forall pushes code -> codes code (fst x) ->
  strayed E sigma code x y \/ exists before rest, code = before ++ rest /\ codes rest (fst y) /\ tsafe rest Q (snd y).
Proof.
  induction 1 as [x|bs i r m m' y St Fi Vi IH]; intros code S P C.
  - right. exists [], code. auto.
  - cbn [fst snd] in *. inversion C as [|e c code' ? (Ch & Me) C' Ec]; subst. cbn [fst snd] in *. cbn [tsafe] in S. destruct S as (_ & [S|S]).
    + left. exists [], e, code', ((bs, i) :: r, m). split; [reflexivity|]. split; [apply ViHere|]. split; [eapply ViStep; eassumption|]. split; [exact C|exact S].
    + inversion P; subst. destruct (IH code' (S bs i _ m' ltac:(assumption) Me St) ltac:(assumption) C') as [(before & e1 & rest & z & -> & V1 & V2 & Cz & Sz)|(before & rest & -> & Cr & Sr)].
      * left. exists (e :: before), e1, rest, z. split; [reflexivity|]. split; [eapply ViStep; eassumption|]. auto.
      * right. exists (e :: before), rest. auto.
Qed.
Lemma tsafe_skip e rest Q main alt ex co : real_code e -> forallb (fun b => b) ex = false -> ~ is_control (em_op e) -> tsafe rest Q (Machine main alt ex co) -> tsafe (e :: rest) Q (Machine main alt ex co).
Proof.
  intros F A NC S. cbn [tsafe]. unfold Spec_Network.active. cbn [m_exec]. split; [rewrite A; discriminate|]. right. intros bs i after m' P M St.
  assert (m' = Machine main alt ex co) as ->; [|exact S]. unfold op_of in M. destruct (em_op e) as [k|o|n] eqn:EO.
  - destruct (means_code _ _ M) as [[K (d & ->)]|[K ->]]; [apply step_push_inv in St; now rewrite A in St|]. eapply step_skipped; try eassumption; [now apply F|intros ->; apply NC; now left|intros ->; apply NC; right; now left|intros ->; apply NC; right; now right].
  - unfold pushes in P. rewrite EO in P. destruct P as (_ & P). destruct o; try contradiction; inversion M; subst; apply step_push_inv in St; now rewrite A in St.
  - inversion M; subst. apply step_push_inv in St. now rewrite A in St.
Qed.
Lemma plain_operands e c m : em_op e = EmCode c -> c = OP_ELSE \/ c = OP_ENDIF -> operands_typed e m.
Proof.
  intros He Hc c' Hc'. rewrite He in Hc'. injection Hc' as <-. exists [], [], [], (m_main m). split; [exists [], [], (fun _ => RInt); destruct Hc; subst; repeat split|]. split; [destruct Hc; subst; reflexivity|constructor].
Qed.
Lemma code_exec e c i : em_op e = EmCode c -> is_constant c = false -> means (op_of e) i -> i = Exec (opcode_u8 c).
Proof. intros He K M. unfold op_of in M. rewrite He in M. destruct (means_code _ _ M) as [[K' _]|[_ ->]]; [congruence|reflexivity]. Qed.
Lemma tsafe_else e rest Q main alt b ex co : em_op e = EmCode OP_ELSE -> tsafe rest Q (Machine main alt (negb b :: ex) co) -> tsafe (e :: rest) Q (Machine main alt (b :: ex) co).
Proof.
  intros He S. cbn [tsafe]. split; [intros _; eapply plain_operands; [exact He|auto]|]. right. intros bs i after m' _ M St. apply (code_exec e OP_ELSE) in M; [|exact He|reflexivity]. subst i. cbn in St. injection St as <-. exact S.
Qed.
Lemma tsafe_endif e rest Q main alt b ex co : em_op e = EmCode OP_ENDIF -> tsafe rest Q (Machine main alt ex co) -> tsafe (e :: rest) Q (Machine main alt (b :: ex) co).
Proof.
  intros He S. cbn [tsafe]. split; [intros _; eapply plain_operands; [exact He|auto]|]. right. intros bs i after m' _ M St. apply (code_exec e OP_ENDIF) in M; [|exact He|reflexivity]. subst i. cbn in St. injection St as <-. exact S.
Qed.
Lemma tsafe_if e o x rest Q w mr alt ex co : em_op e = EmCode OP_IF -> em_src e = SOpcode o -> if_variable o = Some x -> forallb (fun b => b) ex = true -> operands_typed e (Machine (w :: mr) alt ex co) ->
  tsafe rest Q (Machine mr alt (sigma x :: ex) co) -> tsafe (e :: rest) Q (Machine (w :: mr) alt ex co).
Proof.
  intros He Hs Hv A O S. cbn [tsafe]. split; [intros _; exact O|]. destruct (Bool.bool_dec (truth w) (sigma x)) as [D|D].
  - right. intros bs i after m' _ M St. apply (code_exec e OP_IF) in M; [|exact He|reflexivity]. subst i. cbv beta iota delta [Spec_Network.step opcode_u8 Spec_Network.active m_exec] in St. rewrite A in St. cbn in St. injection St as <-. now rewrite D.
  - left. split; [exact He|]. split; [exact A|]. exists o, x, w, mr. auto.
Qed.
Lemma tsafe_if_skip e rest Q main alt ex co : em_op e = EmCode OP_IF -> forallb (fun b => b) ex = false -> tsafe rest Q (Machine main alt (false :: ex) co) -> tsafe (e :: rest) Q (Machine main alt ex co).
Proof.
  intros He A S. cbn [tsafe]. unfold Spec_Network.active. cbn [m_exec]. split; [rewrite A; discriminate|]. right. intros bs i after m' _ M St. apply (code_exec e OP_IF) in M; [|exact He|reflexivity]. subst i.
  cbv beta iota delta [Spec_Network.step opcode_u8 Spec_Network.active m_exec] in St. rewrite A in St. cbn in St. injection St as <-. exact S.
Qed.

(** ** Skipping *)
Definition tskips (code : list emitted) : Prop :=
  forall rest Q main alt ex co, forallb (fun b => b) ex = false -> tsafe rest Q (Machine main alt ex co) -> tsafe (code ++ rest) Q (Machine main alt ex co).
Lemma tskips_app a b : tskips a -> tskips b -> tskips (a ++ b).
Proof. intros Ha Hb rest Q main alt ex co Hex H. rewrite <- app_assoc. apply Ha; [exact Hex|]. now apply Hb. Qed.
Lemma tskips_nil : tskips []. Proof. intros ? ? ? ? ? ? ? H. exact H. Qed.
Lemma tskips_one e : real_code e -> ~ is_control (em_op e) -> tskips [e].
Proof. intros F He rest Q main alt ex co Hex H. now apply tsafe_skip. Qed.
Lemma stmt_tskips s : proper s -> forall g g' code, run_stmt s g = Ok (g', code) -> tskips code.
Proof.
  induction s as [e n|o|b|a b|i t e es en IHt IHe] using stmt_ind'; intros Hp g g' code E0; try discriminate.
  - cbn [run_stmt] in E0. unfold run_push in E0. destruct n; cbn [make_ident] in E0; injection E0 as <- <-; (apply tskips_one; [intros k Hk; discriminate Hk|cbn; intros [H|[H|H]]; discriminate]).
  - inversion Hp as [|? Hb| | |]; subst. cbn [run_stmt] in E0. pose proof (opcode_real _ _ _ _ E0) as Fr. destruct (opcode_code _ _ _ _ E0) as [->|(x & -> & _ & [(c & Hc & Hx)|(n & Hx)])]; [apply tskips_nil| |]; inversion Fr; subst; apply tskips_one; try assumption; [now apply (not_bracket_control o c)|rewrite Hx; intros [H|[H|H]]; discriminate].
  - inversion Hp as [| | | |? ? ? ? ? Hi Ht He Hn Hes Hen]; subst.
    assert (HL : forall l, Forall (fun s => proper s -> forall g g' code, run_stmt s g = Ok (g', code) -> tskips code) l -> Forall proper l -> forall g g' code, run_stmts l g = Ok (g', code) -> tskips code).
    { induction 1 as [|s l Hs _ IH]; intros Hpl g1 g1' c1 E1; [injection E1 as <- <-; apply tskips_nil|]. inversion Hpl; subst. rewrite run_stmts_cons in E1. destruct (run_stmt s g1) as [[g2 c2]| |] eqn:E2; try discriminate. cbn [obind] in E1. destruct (run_stmts l g2) as [[g3 c3]| |] eqn:E3; try discriminate. cbn [obind] in E1. injection E1 as <- <-. apply tskips_app; eauto. }
    rewrite run_if_eq in E0. destruct (run_opcode i g) as [[g0 c0]| |] eqn:E00; try discriminate. cbn [obind] in E0. destruct (if_variable i) as [var|]; [|discriminate].
    destruct (run_stmts t _) as [[g1 c1]| |] eqn:E1; try discriminate. cbn [obind] in E0. destruct (match e with Some o => run_opcode o g1 | None => Ok (g1, []) end) as [[g2 c2]| |] eqn:E2; try discriminate. cbn [obind] in E0.
    destruct (run_stmts es _) as [[g3 c3]| |] eqn:E3; try discriminate. cbn [obind] in E0. destruct (run_opcode en g3) as [[g4 c4]| |] eqn:E4; try discriminate. cbn [obind] in E0. injection E0 as <- <-.
    destruct (run_if_code _ _ _ _ Hi E00) as (_ & _ & x & -> & Hx & _). apply (run_plain OP_ENDIF) in E4; [|auto|exact Hen]. destruct E4 as (_ & y & -> & Hy & _).
    pose proof (HL t IHt Ht _ _ _ E1) as S1. pose proof (HL es IHe Hes _ _ _ E3) as S3.
    intros rest Q main alt ex co Hex H. cbn [app]. rewrite <- !app_assoc. apply tsafe_if_skip; [exact Hx|exact Hex|]. apply S1; [reflexivity|]. destruct e as [o|].
    + apply (run_plain OP_ELSE) in E2; [|auto|now apply He]. destruct E2 as (_ & z & -> & Hz & _). cbn [app]. apply tsafe_else; [exact Hz|]. apply S3; [cbn; exact Hex|]. now apply tsafe_endif.
    + injection E2 as <- <-. cbn [app]. apply S3; [reflexivity|]. now apply tsafe_endif.
Qed.
Lemma stmts_tskips l : Forall proper l -> forall g g' code lines, trun_stmts type_of l g = Ok (g', code, lines) -> tskips code.
Proof.
  intros Hp g g' code lines E0. pose proof (estmts type_of l g) as Er. rewrite E0 in Er. cbn [emap] in Er. unfold eres in Er. cbn [fst snd] in Er. symmetry in Er. clear E0. revert Er. generalize (egen g) (egen g'). clear g g'. revert code.
  induction Hp as [|s l Hs _ IH]; intros c1 g1 g1' E1; [injection E1 as <- <-; apply tskips_nil|]. rewrite run_stmts_cons in E1. destruct (run_stmt s g1) as [[g2 c2]| |] eqn:E2; try discriminate. cbn [obind] in E1. destruct (run_stmts l g2) as [[g3 c3]| |] eqn:E3; try discriminate. cbn [obind] in E1. injection E1 as <- <-.
  apply tskips_app; [eapply stmt_tskips; eassumption|eauto].
Qed.

(** ** The main induction *)
Definition ttracked (G G' : tyenv) (g g' : tgen) (code : list emitted) : Prop :=
  forall k v s s', nth_error (tv_states (tg_vs g)) k = Some (v, s) -> nth_error (tv_states (tg_vs g')) k = Some (v, s') -> satisfies sigma (ts_condition s) -> (forall a, In a (tv_atoms (tg_vs g)) -> literal sigma a) ->
  forall main alt ex co, Rt G s main alt -> forallb (fun b => b) ex = true -> forall rest Q, (forall main' alt' co', Rt G' s' main' alt' -> tsafe rest Q (Machine main' alt' ex co')) -> tsafe (code ++ rest) Q (Machine main alt ex co).
Lemma ttracked_leaf G G' g g' code : (forall k v s main alt, nth_error (tv_states (tg_vs g)) k = Some (v, s) -> tholds_in (tg_vs g) s -> Rt G s main alt -> tleaf E G' g' code k v main alt) -> ttracked G G' g g' code.
Proof.
  intros H k v s s' Hk Hk' Hs Hl main alt ex co HR Hex rest Q HQ. assert (Hh : tholds_in (tg_vs g) s) by (now apply (sat_holds sigma)).
  destruct (H k v s main alt Hk Hh HR) as (s1 & Hk1 & D). rewrite Hk' in Hk1. injection Hk1 as <-. destruct D as [(-> & HR')|(e & -> & Hc & Ho & Hst)]; [now apply HQ|].
  cbn [app tsafe]. split; [intros _; apply Ho|]. right. intros bs i after m' Hp Hm Hstep. destruct (Hst ex co bs i after m' Hex Hp Hm Hstep) as (main' & alt' & co' & -> & HR'). now apply HQ.
Qed.
Lemma ttracked_nil G g : ttracked G G g g [].
Proof. intros k v s s' Hk Hk' _ _ main alt ex co HR Hex rest Q HQ. rewrite Hk in Hk'. injection Hk' as <-. now apply HQ. Qed.
Lemma tkept_nth g g' k v s : kept (egen g) (egen g') -> nth_error (tv_states (tg_vs g)) k = Some (v, s) -> exists s', nth_error (tv_states (tg_vs g')) k = Some (v, s') /\ ts_condition s' = ts_condition s.
Proof.
  intros K Hk. assert (He : nth_error (vs_states (g_vs (egen g))) k = Some (v, estate s)) by (apply (map_nth_error (fun p => (fst p, estate (snd p)))) in Hk; exact Hk).
  destruct (kept_nth _ _ _ _ _ K He) as (s1 & H1 & C1). cbn [egen evs g_vs vs_states] in H1. unfold estates in H1. rewrite nth_error_map in H1. destruct (nth_error (tv_states (tg_vs g')) k) as [[w s']|]; [|discriminate]. cbn in H1. injection H1 as -> <-. exists s'. auto.
Qed.
Lemma ttracked_app G1 G2 G3 g1 g2 g3 a b : kept (egen g1) (egen g2) -> ttracked G1 G2 g1 g2 a -> ttracked G2 G3 g2 g3 b -> ttracked G1 G3 g1 g3 (a ++ b).
Proof.
  intros K Ha Hb k v s s' Hk Hk' Hs Hl main alt ex co HR Hex rest Q HQ. destruct (tkept_nth _ _ _ _ _ K Hk) as (s2 & Hk2 & Hc2). rewrite <- app_assoc. apply (Ha k v s s2 Hk Hk2 Hs Hl main alt ex co HR Hex).
  intros m2 a2 c2 HR2. destruct K as (_ & Katoms). cbn in Katoms. apply (Hb k v s2 s' Hk2 Hk'); [now rewrite Hc2|now rewrite Katoms|exact HR2|exact Hex|exact HQ].
Qed.
Lemma ok_stmt s g g' code lines : trun_stmt type_of s g = Ok (g', code, lines) -> run_stmt s (egen g) = Ok (egen g', code).
Proof. intros H. pose proof (estmt type_of s g) as K. rewrite H in K. cbn [emap] in K. now rewrite <- K. Qed.
Lemma ok_stmts l g g' code lines : trun_stmts type_of l g = Ok (g', code, lines) -> run_stmts l (egen g) = Ok (egen g', code).
Proof. intros H. pose proof (estmts type_of l g) as K. rewrite H in K. cbn [emap] in K. now rewrite <- K. Qed.
Lemma ok_opcode o g g' code lines : trun_opcode type_of o g = Ok (g', code, lines) -> run_opcode o (egen g) = Ok (egen g', code).
Proof. intros H. pose proof (eopcode type_of o g) as K. rewrite H in K. cbn [emap] in K. now rewrite <- K. Qed.
Lemma tmerge_nth a b : forall x y k v s w t, nth_error x k = Some (v, s) -> nth_error y k = Some (w, t) ->
  nth_error (tmerge_states a b x y) k = Some (w, if holds (ts_condition t) a && negb (holds (ts_condition t) b) then s else t).
Proof.
  induction x as [|[v0 s0] x IH]; intros [|[w0 t0] y] [|k] v s w t Hx Hy; try discriminate; cbn [nth_error tmerge_states] in *.
  - injection Hx as <- <-. injection Hy as <- <-. reflexivity.
  - now apply (IH y k v s w t).
Qed.
Lemma talong_if i t e es en g G : talong type_of (SScriptIf i t e es en) g G ->
  tcoherent i g G /\ forall g0 G0 var, accepted (trun_opcode type_of i g) G g0 G0 -> if_variable i = Some var ->
      all_talong type_of t (twith_atom (Atom var true) g0) G0 /\
      forall g1 G1 g2 G2, accepted (trun_stmts type_of t (twith_atom (Atom var true) g0)) G0 g1 G1 -> accepted (match e with Some o => trun_opcode type_of o g1 | None => Ok (g1, [], []) end) G1 g2 G2 ->
        all_talong type_of es (twith_atom (Atom var false) (TGen (tg_vs g0) (tg_n g2))) G2 /\
        forall g3 G3, accepted (trun_stmts type_of es (twith_atom (Atom var false) (TGen (tg_vs g0) (tg_n g2)))) G2 g3 G3 -> tbalanced var (tv_atoms (tg_vs g0)) g1 g3 G3.
Proof.
  cbn [talong]. set (all := fix all (l : list stmt) (g : tgen) (G : tyenv) {struct l} : Prop := match l with [] => True | s :: r => talong type_of s g G /\ forall g1 G1, accepted (trun_stmt type_of s g) G g1 G1 -> all r g1 G1 end).
  assert (Hall : forall l g G, all l g G -> all_talong type_of l g G). { induction l as [|s l IH]; intros g' G'; [intros _; exact I|]. cbn. fold all. intros (A & B); (split; [exact A|]); intros g1 G1 E0; apply IH; eauto. }
  intros (H1 & H2); (split; [exact H1|]); intros g0 G0 var E0 V; destruct (H2 g0 G0 var E0 V) as (A & B); (split; [now apply Hall|]); intros g1 G1 g2 G2 E1 E2; destruct (B g1 G1 g2 G2 E1 E2) as (C & D); (split; [now apply Hall|exact D]).
Qed.
Definition stmt_goal (s : stmt) : Prop := proper s -> forall G G' g g' code lines, trun_stmt type_of s g = Ok (g', code, lines) -> check_lines G lines = Some G' -> never_lowers G lines -> talong type_of s g G -> ttracked G G' g g' code.
Lemma stmts_ttracked_gen l : Forall stmt_goal l -> Forall proper l -> forall G G' g g' code lines, trun_stmts type_of l g = Ok (g', code, lines) -> check_lines G lines = Some G' -> never_lowers G lines -> all_talong type_of l g G -> ttracked G G' g g' code.
Proof.
  induction 1 as [|s l Hs _ IH]; intros Hp G G' g g' code lines E0 C N Ha; [injection E0 as <- <- <-; injection C as <-; apply ttracked_nil|].
  inversion Hp; subst. rewrite trun_stmts_cons in E0. destruct (trun_stmt type_of s g) as [[[g1 c1] l1]| |] eqn:E1; try discriminate. cbn [obind fst snd] in E0. destruct (trun_stmts type_of l g1) as [[[g2 c2] l2]| |] eqn:E2; try discriminate. cbn [obind fst snd] in E0. injection E0 as <- <- <-.
  apply check_app in C. destruct C as (G1 & C1 & C2). apply never_app in N. destruct N as (N1 & N2). cbn [all_talong] in Ha. destruct Ha as (Ha1 & Ha2).
  apply (ttracked_app G G1 G' g g1 g2); [eapply stmt_kept, ok_stmt; eassumption|eapply Hs; eassumption|]. eapply IH; try eassumption; [now apply N2|]. apply Ha2. exists c1, l1. auto.
Qed.
Lemma stmt_ttracked s : stmt_goal s.
Proof.
  induction s as [e n|o|b|a b|i t e es en IHt IHe] using stmt_ind'; intros Hp G G' g g' code lines E0 C N Ha; try discriminate; pose proof (never_raises _ _ _ N C) as R.
  - apply ttracked_leaf. intros k v s main alt Hk Hh HR. eapply push_typed; eassumption.
  - inversion Hp as [|? Hb| | |]; subst. apply ttracked_leaf. intros k v s main alt Hk Hh HR. eapply opcode_typed; eassumption.
  - inversion Hp as [| | | |? ? ? ? ? Hi Ht He Hn Hes Hen]; subst. apply talong_if in Ha. destruct Ha as ((Hagree & _) & Ha). rewrite trun_if_eq in E0.
    destruct (trun_opcode type_of i g) as [[[g0 c0] l0]| |] eqn:E00; try discriminate. cbn [obind fst snd] in E0. destruct (if_variable i) as [var|] eqn:Ev; [|discriminate].
    destruct (trun_stmts type_of t _) as [[[g1 c1] l1]| |] eqn:E1; try discriminate. cbn [obind fst snd] in E0. destruct (match e with Some o => trun_opcode type_of o g1 | None => Ok (g1, [], []) end) as [[[g2 c2] l2]| |] eqn:E2; try discriminate. cbn [obind fst snd] in E0.
    destruct (trun_stmts type_of es _) as [[[g3 c3] l3]| |] eqn:E3; try discriminate. cbn [obind fst snd] in E0. destruct (trun_opcode type_of en g3) as [[[g4 c4] l4]| |] eqn:E4; try discriminate. cbn [obind fst snd] in E0. injection E0 as <- <- <-.
    apply check_app in C. destruct C as (G0 & C0 & C). apply check_app in C. destruct C as (G1 & C1 & C). apply check_app in C. destruct C as (G2 & C2 & C). apply check_app in C. destruct C as (G3 & C3 & C4).
    apply never_app in N. destruct N as (N0 & N). specialize (N G0 C0). apply never_app in N. destruct N as (N1 & N). specialize (N G1 C1). apply never_app in N. destruct N as (N2 & N). specialize (N G2 C2). apply never_app in N. destruct N as (N3 & N4). specialize (N4 G3 C3).
    pose proof (never_raises _ _ _ N0 C0) as R0. pose proof (never_raises _ _ _ N1 C1) as R1. pose proof (never_raises _ _ _ N2 C2) as R2. pose proof (never_raises _ _ _ N3 C3) as R3. pose proof (never_raises _ _ _ N4 C4) as R4.
    destruct (Ha g0 G0 var ltac:(exists c0, l0; auto) eq_refl) as (Hat & Ha'). destruct (Ha' g1 G1 g2 G2 ltac:(exists c1, l1; auto) ltac:(exists c2, l2; auto)) as (Haes & Hbal0). pose proof (Hbal0 g3 G3 ltac:(exists c3, l3; auto)) as Hbal. clear Ha Ha' Hbal0.
    pose proof (stmts_ttracked_gen t IHt Ht _ _ _ _ _ _ E1 C1 N1 Hat) as T1. pose proof (stmts_ttracked_gen es IHe Hes _ _ _ _ _ _ E3 C3 N3 Haes) as T3.
    pose proof (opcode_kept _ _ _ _ (ok_opcode _ _ _ _ _ E00)) as K0. pose proof (stmts_kept _ _ _ _ (ok_stmts _ _ _ _ _ E1)) as K1. pose proof (stmts_kept _ _ _ _ (ok_stmts _ _ _ _ _ E3)) as K3.
    apply (trun_plain OP_ENDIF) in E4; [|auto|exact Hen]. destruct E4 as (V4 & L4 & y & -> & Hy).
    assert (V2 : tg_vs g2 = tg_vs g1). { destruct e as [o|]; [|injection E2 as <- <- <-; reflexivity]. apply (trun_plain OP_ELSE) in E2; [|auto|now apply He]. apply E2. }
    intros k v s s' Hk Hk' Hs Hl main alt ex co HR Hex rest Q HQ.
    assert (Hh : tholds_in (tg_vs g) s) by (now apply (sat_holds sigma)).
    destruct (trun_if_own G G0 i g g0 c0 l0 var k v s main alt Hi E00 C0 R0 Ev Hagree Hk Hh HR) as (x & s0 & w & mr & -> & Hx & Hsrc & -> & Hop & Hk0 & Hc0 & HR0).
    destruct K0 as (_ & Katoms). cbn in Katoms.
    assert (Hk0t : forall b n, nth_error (tv_states (tg_vs (twith_atom (Atom var b) (TGen (tg_vs g0) n)))) k = Some (v, s0)) by (intros; exact Hk0).
    destruct (tkept_nth _ _ k v s0 K1 Hk0) as (s1 & Hk1 & Hc1). destruct (tkept_nth _ _ k v s0 K3 (Hk0t false _)) as (s3 & Hk3 & Hc3).
    assert (Hlit : forall b, sigma var = b -> forall a, In a (tv_atoms (tg_vs g0) ++ [Atom var b]) -> literal sigma a).
    { intros b Hb a Hin. apply in_app_or in Hin. destruct Hin as [Hin|[<-|[]]]; [apply Hl; now rewrite <- Katoms|exact Hb]. }
    assert (Hs0 : satisfies sigma (ts_condition s0)) by (now rewrite Hc0).
    cbn [tg_vs tv_states] in Hk'. rewrite V2, V4 in Hk'. rewrite (tmerge_nth _ _ _ _ k v s1 v s3 Hk1 Hk3) in Hk'. injection Hk' as <-.
    cbn [app]. rewrite <- !app_assoc. apply (tsafe_if x i var); [exact Hx|exact Hsrc|exact Ev|exact Hex|apply Hop|]. destruct (sigma var) eqn:Es.
    + assert (Hht : holds (ts_condition s1) (tv_atoms (tg_vs g0) ++ [Atom var true]) = true). { rewrite Hc1. apply (sat_holds sigma); [exact Hs0|]. now apply Hlit. }
      apply (T1 k v s0 s1 Hk0 Hk1 Hs0 (Hlit true eq_refl) mr alt (true :: ex) co HR0 Hex).
      intros m1 a1 co1 HR1.
      assert (Hfin : tsafe rest Q (Machine m1 a1 ex co1)).
      { apply HQ. pose proof (Rt_raised _ _ _ _ _ (raises_trans _ _ _ R2 R3) HR1) as HR13. destruct (holds (ts_condition s3) (tv_atoms (tg_vs g0) ++ [Atom var true]) && negb (holds (ts_condition s3) (tv_atoms (tg_vs g0) ++ [Atom var false]))) eqn:Em; [eapply Rt_raised; eassumption|].
        assert (Hhe : holds (ts_condition s3) (tv_atoms (tg_vs g0) ++ [Atom var false]) = true). { rewrite Hc3, <- Hc1, Hht in Em. rewrite Hc3, <- Hc1. now destruct (holds (ts_condition s1) (tv_atoms (tg_vs g0) ++ [Atom var false])). }
        destruct (Hbal k v s1 v s3 Hk1 Hk3 Hht Hhe) as (B1 & B2). apply (Rt_raised _ _ _ _ _ R4). destruct HR13 as (A1 & A2). split; eapply items_fit; eassumption. }
      destruct e as [o|].
      * apply (trun_plain OP_ELSE) in E2; [|auto|now apply He]. destruct E2 as (_ & _ & z & -> & Hz). cbn [app]. apply tsafe_else; [exact Hz|]. eapply stmts_tskips; [exact Hes|exact E3|reflexivity|]. now apply tsafe_endif.
      * injection E2 as <- <- <-. rewrite (Hn eq_refl) in *. injection E3 as <- <- <-. cbn [app]. now apply tsafe_endif.
    + assert (Hhe : holds (ts_condition s3) (tv_atoms (tg_vs g0) ++ [Atom var false]) = true). { rewrite Hc3. apply (sat_holds sigma); [exact Hs0|]. now apply Hlit. }
      rewrite Hhe in HQ. rewrite andb_false_r in HQ. pose proof (Rt_raised _ _ _ _ _ (raises_trans _ _ _ R1 R2) HR0) as HR02.
      eapply stmts_tskips; [exact Ht|exact E1|reflexivity|].
      destruct e as [o|].
      * apply (trun_plain OP_ELSE) in E2; [|auto|now apply He]. destruct E2 as (_ & _ & z & -> & Hz). cbn [app]. apply tsafe_else; [exact Hz|]. cbn [negb].
        apply (T3 k v s0 s3 (Hk0t false _) Hk3 Hs0 (Hlit false eq_refl) mr alt (true :: ex) co HR02 Hex). intros m1 a1 co1 HR1. apply tsafe_endif; [exact Hy|]. apply HQ. eapply Rt_raised; eassumption.
      * injection E2 as <- <- <-. rewrite (Hn eq_refl) in *. injection E3 as <- <- <-. cbn [app]. apply tsafe_endif; [exact Hy|]. apply HQ. rewrite Hk0t in Hk3. injection Hk3 as <-. apply (Rt_raised _ _ _ _ _ R4). eapply Rt_raised; eassumption.
Qed.
Lemma stmts_ttracked l : Forall proper l -> forall G G' g g' code lines, trun_stmts type_of l g = Ok (g', code, lines) -> check_lines G lines = Some G' -> never_lowers G lines -> all_talong type_of l g G -> ttracked G G' g g' code.
Proof. apply stmts_ttracked_gen. apply Forall_forall. intros s _. apply stmt_ttracked. Qed.
End Typed.
