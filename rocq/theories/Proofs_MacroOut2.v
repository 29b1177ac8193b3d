(** More proofs about what the script macro puts out: source texts, fields, tags. *)
From Verif Require Import Base BaseLemmas Model_Opcode Model_Script Model_Behavior Model_Macro Spec_Macro Proofs_Macro Model_MacroParse Spec_MacroParse Proofs_MacroParse Proofs_MacroParse2 Model_MacroOut Spec_MacroOut Proofs_MacroOut.
Local Open Scope string_scope.
Local Open Scope list_scope.
Local Open Scope Z_scope.

(** ** Texts in source order *)
Lemma tloop_app p a b : tparse_op_if_loop p (a ++ b) = do p' <- tparse_op_if_loop p a; tparse_op_if_loop p' b.
Proof. revert p. induction a as [|s a IH]; intros p; [reflexivity|]. cbn [app tparse_op_if_loop]. destruct (tparse_op_if_step p s); cbn [obind]; auto. Qed.
Lemma tstep_leaf p x o : ~ is_bracket o -> tparse_op_if_step p (TOpcode x o) = Ok (tplace p (TOpcode x o)).
Proof.
  intros H. unfold tparse_op_if_step. unfold is_bracket, is_if in H.
  destruct (String.eqb_spec (os_ident o) "OP_IF"); [tauto|]. destruct (String.eqb_spec (os_ident o) "OP_NOTIF"); [tauto|]. cbn [orb].
  destruct (String.eqb_spec (os_ident o) "OP_ELSE"); [tauto|]. destruct (String.eqb_spec (os_ident o) "OP_ENDIF"); [tauto|]. reflexivity.
Qed.
Lemma tstep_if p x o : is_if o -> tparse_op_if_step p (TOpcode x o) = Ok (TIfParser (tp_new p) (TOpenIf x o None [] [] :: tp_stack p) true).
Proof. intros H. unfold tparse_op_if_step. now rewrite is_if_eqb. Qed.
Lemma tstep_else new x o top rest f : os_ident o = "OP_ELSE" -> tparse_op_if_step (TIfParser new (top :: rest) f) (TOpcode x o) =
  Ok (TIfParser new (TOpenIf (to_if_src top) (to_if top) (Some (x, o)) (to_then_stmts top) (to_else_stmts top) :: rest) false).
Proof. intros H. unfold tparse_op_if_step. rewrite H. reflexivity. Qed.
Lemma tstep_endif new x o top rest f : os_ident o = "OP_ENDIF" -> tparse_op_if_step (TIfParser new (top :: rest) f) (TOpcode x o) =
  Ok (tplace (TIfParser new rest f) (TScriptIf (to_if_src top) (to_if top) (to_then_stmts top) (to_else top) (to_else_stmts top) x o)).
Proof. intros H. unfold tparse_op_if_step. rewrite H. reflexivity. Qed.
Lemma erase_opcode s o : erase s = SOpcode o -> exists x, s = TOpcode x o.
Proof. destruct s; cbn; intros E; try discriminate. injection E as ->. eauto. Qed.
Lemma tbody_app a b : tbody (a ++ b) = tbody a ++ tbody b.
Proof. unfold tbody. now rewrite flat_map_app. Qed.
Lemma tbody_cons s l : tbody (s :: l) = twritten s ++ tbody l.
Proof. reflexivity. Qed.
Lemma map_cons_inv {A B} (f : A -> B) l b r : map f l = b :: r -> exists a l', l = a :: l' /\ f a = b /\ map f l' = r.
Proof. destruct l as [|a l]; [discriminate|]. intros E. injection E as <- <-. eauto. Qed.
Lemma tgroups_parse k l t : groups k l t -> forall tl, map erase tl = l -> exists tt, tbody tt = tbody tl /\
  match k with
  | Outside => forall new f, exists f', tparse_op_if_loop (TIfParser new [] f) tl = Ok (TIfParser (new ++ tt) [] f')
  | InThen => forall new x i e th es rest, tparse_op_if_loop (TIfParser new (TOpenIf x i e th es :: rest) true) tl = Ok (TIfParser new (TOpenIf x i e (th ++ tt) es :: rest) true)
  | InElse => forall new x i e th es rest, tparse_op_if_loop (TIfParser new (TOpenIf x i e th es :: rest) false) tl = Ok (TIfParser new (TOpenIf x i e th (es ++ tt) :: rest) false)
  end.
Proof.
  induction 1 as [k|k s l t Hs _ IH|k i a ta en l t Hk Hi _ IHa Hen _ IH|k i a ta el b tb en l t Hk Hi _ IHa Hel _ IHb Hen _ IH]; intros tl Etl.
  - apply map_eq_nil in Etl. subst tl. exists []. split; [reflexivity|]. destruct k; intros; cbn [tparse_op_if_loop]; rewrite ?app_nil_r; eauto.
  - apply map_cons_inv in Etl as (ts & tl' & -> & Es & El). destruct (IH _ El) as (tt & Eb & IH'). exists (ts :: tt). split; [now rewrite !tbody_cons, Eb|].
    assert (Hp : forall p, tparse_op_if_step p ts = Ok (tplace p ts)). { intros p. destruct ts as [|x o | | | ]; try reflexivity. apply tstep_leaf. apply Hs. now rewrite <- Es. }
    destruct k; intros; cbn [tparse_op_if_loop]; rewrite Hp; unfold tplace; cbn [obind tp_stack tp_new tp_is_then to_if_src to_if to_else to_then_stmts to_else_stmts].
    + destruct (IH' (new ++ [ts]) f) as (f' & E). exists f'. rewrite E, <- app_assoc. reflexivity.
    + rewrite IH', <- app_assoc. reflexivity.
    + rewrite IH', <- app_assoc. reflexivity.
  - apply map_cons_inv in Etl as (ti & tl' & -> & Ei & El). apply map_eq_app in El as (tla & tl2 & -> & Ea & El2). apply map_cons_inv in El2 as (ten & tl3 & -> & Een & El3). apply erase_opcode in Ei as (x & ->). apply erase_opcode in Een as (y & ->).
    destruct (IHa _ Ea) as (tta & Eba & IHa'). destruct (IH _ El3) as (tt & Eb & IH'). exists (TScriptIf x i tta None [] y en :: tt). split.
    { rewrite !tbody_cons, tbody_app, tbody_cons, twritten_if, Eb, Eba. cbn [twritten tbody flat_map app]. rewrite <- !app_assoc. reflexivity. }
    destruct k; [| |now destruct Hk]; intros; cbn [tparse_op_if_loop]; rewrite tstep_if by assumption; cbn [obind tp_new tp_stack]; rewrite tloop_app, IHa'; cbn [obind tparse_op_if_loop]; rewrite tstep_endif by assumption; unfold tplace; cbn [obind tp_stack tp_new tp_is_then to_if_src to_if to_else to_then_stmts to_else_stmts app].
    + destruct (IH' (new ++ [TScriptIf x i tta None [] y en]) true) as (f' & E). exists f'. rewrite E, <- app_assoc. reflexivity.
    + rewrite IH', <- app_assoc. reflexivity.
  - apply map_cons_inv in Etl as (ti & tl' & -> & Ei & El). apply map_eq_app in El as (tla & tl2 & -> & Ea & El2). apply map_cons_inv in El2 as (tel & tl3 & -> & Eel & El3). apply map_eq_app in El3 as (tlb & tl4 & -> & Ebb & El4). apply map_cons_inv in El4 as (ten & tl5 & -> & Een & El5).
    apply erase_opcode in Ei as (x & ->). apply erase_opcode in Een as (y & ->). apply erase_opcode in Eel as (z & ->).
    destruct (IHa _ Ea) as (tta & Eba & IHa'). destruct (IHb _ Ebb) as (ttb & Ebbb & IHb'). destruct (IH _ El5) as (tt & Eb & IH'). exists (TScriptIf x i tta (Some (z, el)) ttb y en :: tt). split.
    { rewrite !tbody_cons, tbody_app, tbody_cons, tbody_app, tbody_cons, twritten_if, Eb, Eba, Ebbb. cbn [twritten app]. rewrite <- !app_assoc. cbn [app]. rewrite <- !app_assoc. reflexivity. }
    destruct k; [|now destruct Hk|]; intros; cbn [tparse_op_if_loop]; rewrite tstep_if by assumption; cbn [obind tp_new tp_stack]; rewrite tloop_app, IHa'; cbn [obind tparse_op_if_loop]; rewrite tstep_else by assumption; cbn [obind to_if_src to_if to_then_stmts to_else_stmts]; rewrite tloop_app, IHb'; cbn [obind tparse_op_if_loop]; rewrite tstep_endif by assumption; unfold tplace; cbn [obind tp_stack tp_new tp_is_then to_if_src to_if to_else to_then_stmts to_else_stmts app].
    + destruct (IH' (new ++ [TScriptIf x i tta (Some (z, el)) ttb y en]) false) as (f' & E). exists f'. rewrite E, <- app_assoc. reflexivity.
    + rewrite IH', <- app_assoc. reflexivity.
Qed.
Lemma tgroups_ok tl t : groups Outside (map erase tl) t -> exists tt, tparse_op_if tl = Ok tt /\ tbody tt = tbody tl.
Proof. intros H. destruct (tgroups_parse _ _ _ H tl eq_refl) as (tt & Eb & Hp). destruct (Hp [] true) as (f' & E). exists tt. split; [unfold tparse_op_if; rewrite E; reflexivity|exact Eb]. Qed.
Section P.
Context (R : rust) (S : source).
Lemma lift_ok {A B} (f : A -> B) o b : lift f o = Ok b -> exists a, o = Ok a /\ b = f a.
Proof. destruct o; cbn; intros E; try discriminate. injection E as <-. eauto. Qed.
Lemma tstand_lines : (forall s l, stands R s l -> forall tl, tparse_stmt R S s = Ok tl -> Forall simple (body l) -> tline R S s (tbody tl)) /\
  (forall e l, stands_expr R e l -> forall tl, tparse_stmt_expr R S e = Ok tl -> Forall simple (body l) -> tline_expr R S e (tbody tl)) /\
  (forall b t, block R b t -> forall tl, tparse_stmts R S b = Ok tl -> Forall simple (body t) -> tlines R S b (tbody tl)) /\
  (forall l r, all_stand R l r -> forall tl, tcollect R S l = Ok tl -> Forall simple (body r) -> tlines R S l (tbody tl)).
Proof.
  apply stands_mut.
  - intros p ns e o Hb Ho tl E _. assert (He : is_call_or_path e = true) by (apply shaped_iff; eapply opcode_line_shaped; exact Ho). cbn [tparse_stmt] in E. unfold tparse_let in E. rewrite (proj2 (binds_iff p ns) Hb) in E. cbn [obind] in E. rewrite He in E. rewrite (proj2 (opcode_line_iff R e (Some ns) o) Ho) in E. cbn [obind] in E. injection E as <-. eapply TlLetOpcode; eassumption.
  - intros p n e Hb Hs tl E _. assert (He : is_call_or_path e = false) by (destruct (is_call_or_path e) eqn:Q; [apply shaped_iff in Q; contradiction|reflexivity]). cbn [tparse_stmt] in E. unfold tparse_let in E. rewrite (proj2 (binds_iff p [n]) Hb) in E. cbn [obind] in E. rewrite He in E. injection E as <-. now apply TlLetPush.
  - intros e l _ IH tl E H. constructor. now apply IH.
  - intros e l _ IH tl E H. constructor. now apply IH.
  - intros e o Ho tl E _. assert (Hs := opcode_line_shaped R _ _ _ Ho). apply opcode_line_iff in Ho as Eo. destruct e; try contradiction; cbn [tparse_stmt_expr] in E; rewrite Eo in E; cbn [obind] in E; injection E as <-; now apply TlOpcode.
  - intros e He tl E _. destruct e; try contradiction. injection E as <-. now apply TlPush.
  - intros b t _ IH tl E H. rewrite tblock_eq in E. apply TlBlock. now apply IH.
  - intros h b t _ _ tl E H. inversion H as [|? ? Hf]. destruct Hf.
  - intros c b t _ _ tl E H. inversion H as [|? ? Hf]. destruct Hf.
  - intros c b t e es _ _ _ _ tl E H. inversion H as [|? ? Hf]. destruct Hf.
  - intros l flat t Hall IH Hg tl E H. unfold tparse_stmts in E. apply parses in Hall. rewrite (collect_erase R S) in Hall by (apply Forall_forall; intros; apply stmt_erase). apply lift_ok in Hall as (tf & Ef & Eflat). rewrite Ef in E. cbn [obind] in E. rewrite Eflat in Hg. destruct (tgroups_ok _ _ Hg) as (tt & Et & Eb). rewrite Et in E. injection E as <-. rewrite Eb. apply IH; [exact Ef|]. rewrite Eflat. rewrite <- (groups_body _ _ _ Hg). exact H.
  - intros tl E _. injection E as <-. constructor.
  - intros s r a b Hs IHs Hr IHr tl E H. rewrite tcollect_cons in E. apply parses in Hs, Hr. rewrite (stmt_erase R S) in Hs. rewrite (collect_erase R S) in Hr by (apply Forall_forall; intros; apply stmt_erase). apply lift_ok in Hs as (ta & Ea & Qa). apply lift_ok in Hr as (tb & Eb & Qb). rewrite Ea in E. cbn [obind] in E. rewrite Eb in E. injection E as <-. rewrite body_app in H. apply Forall_app in H as (Ha & Hb). rewrite tbody_app. constructor; auto.
Qed.
Scheme tline_m := Minimality for tline Sort Prop
  with tline_expr_m := Minimality for tline_expr Sort Prop
  with tlines_m := Minimality for tlines Sort Prop.
Combined Scheme tline_mut from tline_m, tline_expr_m, tlines_m.
Lemma tline_fun : (forall s l, tline R S s l -> forall l', tline R S s l' -> l = l') /\ (forall e l, tline_expr R S e l -> forall l', tline_expr R S e l' -> l = l') /\ (forall b l, tlines R S b l -> forall l', tlines R S b l' -> l = l').
Proof.
  apply tline_mut.
  - intros p ns e o Hb Ho l' H. inversion H as [? ns' ? o' Hb' Ho'|? n' ? Hb' Hs'| |]; subst.
    + apply binds_iff in Hb, Hb'. assert (ns' = ns) by congruence. subst ns'. repeat f_equal. eapply opcode_line_fun; eassumption.
    + exfalso. apply Hs'. eapply opcode_line_shaped; exact Ho.
  - intros p n e Hb Hs l' H. inversion H as [? ns' ? o' Hb' Ho'|? n' ? Hb' Hs'| |]; subst.
    + exfalso. apply Hs. eapply opcode_line_shaped; exact Ho'.
    + apply binds_iff in Hb, Hb'. assert (n' = n) by congruence. now subst.
  - intros e l _ IH l' H. inversion H; subst. auto.
  - intros e l _ IH l' H. inversion H; subst. auto.
  - intros e o Ho l' H. inversion H as [? o' Ho'|? Hp|]; subst.
    + repeat f_equal. eapply opcode_line_fun; eassumption.
    + apply opcode_line_shaped in Ho. destruct e; contradiction.
    + apply opcode_line_shaped in Ho. destruct Ho.
  - intros e Hp l' H. inversion H as [? o' Ho'|? Hp'|]; subst; [apply opcode_line_shaped in Ho'; destruct e; contradiction|reflexivity|destruct Hp].
  - intros b l _ IH l' H. inversion H as [? o' Ho'|? Hp'|]; subst; [apply opcode_line_shaped in Ho'; destruct Ho'|destruct Hp'|auto].
  - intros l' H. inversion H. reflexivity.
  - intros s r a b _ IHs _ IHr l' H. inversion H; subst. f_equal; auto.
Qed.
End P.

(** ** Fields *)
Lemma filter_eqb_count w v vs : occurrences w (v :: vs) = if String.eqb w v then Datatypes.S (occurrences w vs) else occurrences w vs.
Proof. unfold occurrences. cbn [filter]. destruct (String.eqb w v); reflexivity. Qed.
Lemma push_fields_lookup f vs : forall m m', push_fields vs f m = Ok m' -> forall w, lookup w m' = match lookup w m with Some l => Some (l ++ repeat f (occurrences w vs)) | None => None end.
Proof.
  induction vs as [|v vs IH]; intros m m' E w; cbn [push_fields] in E.
  - injection E as <-. destruct (lookup w m); [|reflexivity]. cbn [occurrences filter length repeat]. now rewrite app_nil_r.
  - destruct (lookup v m) as [l|] eqn:El; [|discriminate]. rewrite (IH _ _ E w), lookup_insert, filter_eqb_count. destruct (String.eqb_spec w v) as [->|]; [|reflexivity]. rewrite El. cbn [repeat]. now rewrite <- app_assoc.
Qed.
Lemma enum_fields_lookup all_v ins : forall vars m m', enum_fields all_v ins vars m = Ok m' ->
  forall w, lookup w m' = match lookup w m with Some l => Some (l ++ flat_map (fun '(f, v) => repeat f (occurrences w (match v with Some vs => vs | None => all_v end))) (combine ins vars)) | None => None end.
Proof.
  induction ins as [|f ins IH]; intros vars m m' E w; cbn [enum_fields] in E.
  - injection E as <-. cbn [combine flat_map]. destruct (lookup w m); [now rewrite app_nil_r|reflexivity].
  - destruct vars as [|v vars]; [injection E as <-; cbn [combine flat_map]; destruct (lookup w m); [now rewrite app_nil_r|reflexivity]|]. destruct (push_fields _ f m) as [m1| |] eqn:E1; try discriminate. cbn [obind] in E. rewrite (IH _ _ _ E w), (push_fields_lookup _ _ _ _ E1 w). destruct (lookup w m); [|reflexivity]. cbn [combine flat_map]. now rewrite <- app_assoc.
Qed.
Lemma init_lookup {A} vs : forall (m : list (string * list A)) w, In w vs \/ lookup w m = Some [] -> lookup w (fold_left (fun m v => insert v [] m) vs m) = Some [].
Proof.
  induction vs as [|v vs IH]; intros m w [H|H]; cbn [fold_left].
  - destruct H.
  - exact H.
  - destruct H as [->|H]; apply IH; [|now left]. right. now rewrite lookup_insert, String.eqb_refl.
  - apply IH. right. rewrite lookup_insert. destruct (String.eqb w v); [reflexivity|exact H].
Qed.
Lemma occ_nodup w vs : NoDup vs -> occurrences w vs = if existsb (String.eqb w) vs then 1%nat else 0%nat.
Proof.
  induction 1 as [|v vs Hn HD IH]; [reflexivity|]. rewrite filter_eqb_count, IH. cbn [existsb]. destruct (String.eqb_spec w v) as [->|]; [|reflexivity]. cbn [orb]. destruct (existsb (String.eqb v) vs) eqn:E; [|reflexivity]. exfalso. apply Hn. apply existsb_exists in E as (x & Hx & Ex). apply String.eqb_eq in Ex. now subst.
Qed.
Lemma existsb_in w vs : In w vs -> existsb (String.eqb w) vs = true.
Proof. intros H. apply existsb_exists. exists w. split; [exact H|apply String.eqb_refl]. Qed.

(** ** Tags *)
Lemma tag_length d S lines code : forall n, length (tag_ops d S lines n code) = length code.
Proof. induction code as [|e r IH]; intros n; [reflexivity|]. cbn [tag_ops length]. now rewrite IH. Qed.
Lemma tag_op_eq d file pos o sc pn an : t_op (make_tagged_op d file pos o sc pn an) = o.
Proof. destruct d; reflexivity. Qed.
Lemma tag_ops_ops d S lines code : forall n, map t_op (tag_ops d S lines n code) = map emitted_value code.
Proof. induction code as [|e r IH]; intros n; [reflexivity|]. cbn [tag_ops map]. now rewrite IH, tag_op_eq. Qed.
Lemma tag_nth d S lines code : forall n k t, nth_error (tag_ops d S lines n code) k = Some t ->
  exists e, nth_error code k = Some e /\ t = make_tagged_op d (src_file S) (src_script_pos S (n + k)) (emitted_value e) (formatted_stmts lines (n + k)) (em_pushed e) (em_alt_pushed e).
Proof.
  induction code as [|e r IH]; intros n k t E; [destruct k; discriminate|]. destruct k as [|k]; cbn [tag_ops nth_error] in E.
  - injection E as <-. exists e. rewrite Nat.add_0_r. auto.
  - destruct (IH _ _ _ E) as (e' & Ee & ->). exists e'. split; [exact Ee|]. now rewrite Nat.add_succ_r.
Qed.
Lemma push_inputs_ops G v vals l : forall n, map t_op (push_inputs G v n l vals) = map vals (map fi_name l).
Proof. induction l as [|f l IH]; intros n; [reflexivity|]. cbn [push_inputs map]. now rewrite IH, tag_op_eq. Qed.
Lemma value_right e : op_right e -> stands_for (em_src e) (emitted_value e).
Proof.
  unfold op_right, stands_for, emitted_value. destruct (em_src e) as [x n|o| | | ]; try tauto; [now intros ->|]. destruct (opcode_by_name (os_ident o)); [now intros ->|]. intros (n & ->). eauto.
Qed.

(** ** The parts of a generated item *)
Lemma expand_inv R S args f G : expand R S args f = Ok G -> exists s ts lines g code m, parse_script R args f = Ok s /\ tparse_stmts R S (fn_block f) = Ok ts /\
  src_format S max_line_widths (make_stmt_token_streams ts) = Some lines /\ run_script (macro_of s) = Ok (g, code) /\
  match ir_variants s with
  | [] => Ok []
  | _ => enum_fields (map fst (ir_variants s)) (map (fun '(i, t) => field_of false i t) (combine (ir_inputs s) (input_texts S (ir_fn s)))) (map ii_variants (ir_inputs s)) (fold_left (fun m v => insert v [] m) (map fst (ir_variants s)) [])
  end = Ok m /\ fn_const_generics (ir_fn s) = false /\
  G = Generated (ir_struct s) (sd_struct (ir_docs s))
        (match ir_variants s with
         | [] => GStruct (map (fun '(i, t) => field_of true i t) (combine (ir_inputs s) (input_texts S (ir_fn s))))
         | _ => GEnum (map (fun v => (v, match lookup v (sd_variants (ir_docs s)) with Some d => d | None => [] end, match lookup v m with Some l => l | None => [] end)) (map fst (ir_variants s)))
         end)
        (match ir_crate s with Some c => c | None => "bitcoin_cash" end)
        (match src_deref S (ir_param_type s) with Some t => t | None => ir_param_type s end) (match src_deref S (ir_param_type s) with Some _ => true | None => false end)
        (fn_name (ir_fn s)) ("__impl_" ++ fn_name (ir_fn s))%string (fn_attrs (ir_fn s)) (ir_debug s) S
        (tag_ops (ir_debug s) S lines 0 code).
Proof.
  unfold expand. destruct (parse_script R args f) as [s| |]; try discriminate. cbn [obind]. destruct (tparse_stmts R S (fn_block f)) as [ts| |]; try discriminate. cbn [obind]. unfold generate. destruct (src_format S max_line_widths (make_stmt_token_streams ts)) as [lines|] eqn:El; [|discriminate].
  destruct (run_script (macro_of s)) as [[g code]| |] eqn:Er; try discriminate. cbn [obind]. cbv zeta. destruct (match ir_variants s with [] => Ok [] | _ => _ end) as [m| |] eqn:Em; try discriminate. cbn [obind]. destruct (fn_const_generics (ir_fn s)) eqn:Ec; [discriminate|]. intros E. injection E as <-.
  exists s, ts, lines, g, code, m. repeat (split; [first [reflexivity|assumption]|]). destruct (ir_variants s); reflexivity.
Qed.
Lemma script_fn R args f s : parse_script R args f = Ok s -> ir_fn s = f /\ length (ir_inputs s) = length (tl (fn_inputs f)) /\ parse_stmts R (fn_block f) = Ok (ir_stmts s).
Proof.
  unfold parse_script. destruct (parse_attrs R args); try discriminate. cbn [obind]. destruct (fn_returns f); [discriminate|]. destruct (parse_docs _ _ _ _); try discriminate. cbn [obind]. destruct (parse_script_inputs (fn_inputs f)) as [[ins ty]| |] eqn:Ei; try discriminate. cbn [obind]. destruct (parse_stmts R (fn_block f)) eqn:Es; try discriminate. cbn [obind]. intros E. injection E as <-. cbn.
  split; [reflexivity|]. split; [|reflexivity]. apply parameters_iff in Ei as (attrs & p & rest & Ef & HF). rewrite Ef. cbn [tl]. symmetry. clear -HF. induction HF; cbn; congruence.
Qed.
