(** Proofs about the front end of the script macro. *)
From Verif Require Import Base BaseLemmas Model_Opcode Model_Script Model_Behavior Model_Macro Spec_Macro Proofs_Macro Model_MacroParse Spec_MacroParse.
Local Open Scope string_scope.
Local Open Scope list_scope.
Local Open Scope Z_scope.

Lemma omap_ok {A B} (f : A -> outcome B) l r : omap f l = Ok r <-> Forall2 (fun a b => f a = Ok b) l r.
Proof.
  revert r. induction l as [|a l IH]; intros r; cbn [omap].
  - split; [intros E; injection E as <-; constructor|inversion 1; reflexivity].
  - split.
    + destruct (f a) as [b| |] eqn:Eb; cbn [obind]; try discriminate. destruct (omap f l) as [bs| |] eqn:El; cbn [obind]; try discriminate. intros E. injection E as <-. constructor; [exact Eb|]. now apply IH.
    + inversion 1 as [|? b ? bs Hb Hbs]; subst. rewrite Hb. cbn [obind]. apply IH in Hbs. rewrite Hbs. reflexivity.
Qed.

Lemma F2_impl {A B} (P Q : A -> B -> Prop) l r : (forall a b, P a b -> Q a b) -> Forall2 P l r -> Forall2 Q l r.
Proof. intros H. induction 1; constructor; auto. Qed.
(** ** Induction on statements *)
Section Ind.
  Context (P : expr -> Prop) (Q : rust_stmt -> Prop).
  Context (HCall : forall a f args, P (ECall a f args)) (HPath : forall p, P (EPath p)) (HFor : forall h b, Forall Q b -> P (EForLoop h b))
          (HIf : forall c b el, Forall Q b -> (forall e, el = Some e -> P e) -> P (EIf c b el)) (HBlock : forall b, Forall Q b -> P (EBlock b)) (HOther : forall t, P (EOther t)).
  Context (HLocal : forall p i, Q (StLocal p i)) (HExpr : forall e, P e -> Q (StExpr e)) (HSemi : forall e, P e -> Q (StSemi e)) (HItem : Q StItem).
  Fixpoint expr_ind' (e : expr) : P e :=
    let all := fix all (l : list rust_stmt) : Forall Q l := match l with [] => Forall_nil _ | s :: r => Forall_cons _ (rust_stmt_ind' s) (all r) end in
    match e with
    | ECall a f args => HCall a f args
    | EPath p => HPath p
    | EForLoop h b => HFor h b (all b)
    | EIf c b el => HIf c b el (all b) (match el with Some x => fun e E => match E in _ = o return match o with Some y => P y | None => True end with eq_refl => expr_ind' x end | None => fun e E => match E in _ = o return match o with Some y => P y | None => True end with eq_refl => Logic.I end end)
    | EBlock b => HBlock b (all b)
    | EOther t => HOther t
    end
  with rust_stmt_ind' (s : rust_stmt) : Q s :=
    match s with
    | StLocal p i => HLocal p i
    | StExpr e => HExpr e (expr_ind' e)
    | StSemi e => HSemi e (expr_ind' e)
    | StItem => HItem
    end.
End Ind.

Section P.
Context (R : rust).
Lemma collect_cons s l : collect R (s :: l) = do a <- parse_stmt R s; do b <- collect R l; Ok (a ++ b).
Proof. reflexivity. Qed.
Lemma for_eq h b : parse_stmt_expr R (EForLoop h b) = do t <- parse_stmts R b; Ok [SForLoop t].
Proof. unfold parse_stmts. cbn [parse_stmt_expr]. fold (collect R). destruct (collect R b); reflexivity. Qed.
Lemma block_eq b : parse_stmt_expr R (EBlock b) = parse_stmts R b.
Proof. reflexivity. Qed.
Lemma if_eq c b el : parse_stmt_expr R (EIf c b el) = do t <- parse_stmts R b; do es <- match el with Some x => parse_stmt_expr R x | None => Ok [] end; Ok [SRustIf t es].
Proof. unfold parse_stmts. cbn [parse_stmt_expr]. fold (collect R). destruct (collect R b); reflexivity. Qed.

(** ** Lines *)
Lemma binds_iff p ns : let_outputs p = Ok ns <-> binds p ns.
Proof.
  split.
  - destruct p as [n [|]|[|] ps|]; cbn [let_outputs]; try discriminate.
    + intros E. injection E as <-. constructor.
    + intros E. constructor. apply omap_ok in E. eapply F2_impl; [|exact E]. intros p0 n0. destruct p0; try discriminate. cbn. intros E'. injection E' as <-. eauto.
  - intros [n|ps ns' H]; [reflexivity|]. cbn [let_outputs]. apply omap_ok. eapply F2_impl; [|exact H]. intros p0 n0 (b & ->). reflexivity.
Qed.
Lemma argument_iff e i : parse_opcode_input R e = i <-> argument R e i.
Proof.
  split.
  - intros <-. unfold parse_opcode_input. destruct e as [| [x [|]] | | | | ]; try (apply ArExpr; intros; discriminate). apply ArName.
  - intros [x|e' H]; [reflexivity|]. unfold parse_opcode_input. destruct e' as [| [x [|]] | | | | ]; try reflexivity. exfalso. now apply (H x).
Qed.
Lemma arguments_iff args ins : option_map (map (parse_opcode_input R)) args = ins <-> arguments R args ins.
Proof.
  destruct args as [l|]; destruct ins as [l'|]; cbn [option_map arguments]; try (split; [discriminate|contradiction]); [|tauto].
  split.
  - intros E. injection E as <-. induction l as [|e l IH]; constructor; [now apply argument_iff|exact IH].
  - intros H. f_equal. induction H as [|e i l l' H _ IH]; [reflexivity|]. cbn [map]. f_equal; [now apply argument_iff|exact IH].
Qed.
Lemma opcode_line_iff e outs o : parse_opcode R e outs = Ok o <-> opcode_line R e outs o.
Proof.
  unfold opcode_line. split.
  - destruct e as [a f args|p| | | | ]; cbn [parse_opcode]; try discriminate.
    + destruct a; [discriminate|]. destruct f as [|p| | | | ]; try discriminate. destruct p as [x [|]]; try discriminate. cbn [opcode_of_path]. intros E. injection E as <-. exists (Some args). cbn [os_ident os_inputs os_outputs]. split; [constructor|]. split; [|reflexivity]. now apply arguments_iff.
    + destruct p as [x [|]]; try discriminate. cbn [opcode_of_path]. intros E. injection E as <-. exists None. cbn [os_ident os_inputs os_outputs]. split; [constructor|]. split; [exact Logic.I|reflexivity].
  - intros (args & Ha & Hi & Ho). destruct o as [x ins outs']. cbn [os_ident os_inputs os_outputs] in *. subst outs'. apply arguments_iff in Hi. subst ins. destruct Ha; reflexivity.
Qed.
Lemma applies_iff e : (exists x args, applies e x args) <-> exists o outs, parse_opcode R e outs = Ok o.
Proof.
  split.
  - intros (x & args & H). exists (OpcodeStmt x (option_map (map (parse_opcode_input R)) args) None), None. destruct H; reflexivity.
  - intros (o & outs & H). apply opcode_line_iff in H as (args & H & _). eauto.
Qed.
Lemma shaped_iff e : is_call_or_path e = true <-> opcode_shaped e.
Proof. destruct e; cbn; split; intros; try discriminate; try contradiction; auto. Qed.
Lemma applies_shaped e x args : applies e x args -> opcode_shaped e.
Proof. intros []; exact Logic.I. Qed.
Lemma let_opcode p ns e o : binds p ns -> opcode_line R e (Some ns) o -> parse_let R p (Some e) = Ok [SOpcode o].
Proof.
  intros Hb Ho. unfold parse_let. apply binds_iff in Hb. rewrite Hb. cbn [obind]. assert (Hs : is_call_or_path e = true) by (destruct Ho as (args & Ha & _); apply shaped_iff; eapply applies_shaped; exact Ha). rewrite Hs. apply opcode_line_iff in Ho. rewrite Ho. reflexivity.
Qed.
Lemma let_push p n e : binds p [n] -> ~ opcode_shaped e -> parse_let R p (Some e) = Ok [SPush (expr_pushop R e) (Some n)].
Proof.
  intros Hb Ho. unfold parse_let. apply binds_iff in Hb. rewrite Hb. cbn [obind]. destruct (is_call_or_path e) eqn:E; [|reflexivity]. exfalso. apply Ho. now apply shaped_iff.
Qed.
Lemma let_inv p i l : parse_let R p i = Ok l -> exists e, i = Some e /\ ((exists ns o, binds p ns /\ opcode_line R e (Some ns) o /\ l = [SOpcode o]) \/ (exists n, binds p [n] /\ ~ opcode_shaped e /\ l = [SPush (expr_pushop R e) (Some n)])).
Proof.
  unfold parse_let. destruct i as [e|]; [|discriminate]. destruct (let_outputs p) as [ns| |] eqn:En; try discriminate. cbn [obind]. apply binds_iff in En. destruct (is_call_or_path e) eqn:Es.
  - destruct (parse_opcode R e (Some ns)) as [o| |] eqn:Eo; try discriminate. cbn [obind]. intros E. injection E as <-. exists e. split; [reflexivity|]. left. exists ns, o. apply opcode_line_iff in Eo. auto.
  - destruct ns as [|n [|]]; try discriminate. intros E. injection E as <-. exists e. split; [reflexivity|]. right. exists n. split; [exact En|]. split; [|reflexivity]. intros H. apply shaped_iff in H. congruence.
Qed.
Lemma expr_opcode e o : opcode_line R e None o -> parse_stmt_expr R e = Ok [SOpcode o].
Proof.
  intros H. assert (Hs : opcode_shaped e) by (destruct H as (args & Ha & _); eapply applies_shaped; exact Ha). apply opcode_line_iff in H. destruct e; try contradiction; cbn [parse_stmt_expr]; rewrite H; reflexivity.
Qed.

(** ** Brackets *)
Lemma groups_parse k l t : groups k l t ->
  match k with
  | Outside => forall new f, exists f', parse_op_if_loop (IfParser new [] f) l = Ok (IfParser (new ++ t) [] f')
  | InThen => forall new i e th es rest, parse_op_if_loop (IfParser new (OpenIf i e th es :: rest) true) l = Ok (IfParser new (OpenIf i e (th ++ t) es :: rest) true)
  | InElse => forall new i e th es rest, parse_op_if_loop (IfParser new (OpenIf i e th es :: rest) false) l = Ok (IfParser new (OpenIf i e th (es ++ t) :: rest) false)
  end.
Proof.
  induction 1 as [k|k s l t Hs _ IH|k i a ta en l t Hk Hi _ IHa Hen _ IH|k i a ta el b tb en l t Hk Hi _ IHa Hel _ IHb Hen _ IH].
  - destruct k; intros; cbn [parse_op_if_loop]; rewrite ?app_nil_r; eauto.
  - assert (Hp : forall p, parse_op_if_step p s = Ok (place p s)).
    { intros p. destruct s as [| o | | | ]; try reflexivity. apply step_leaf. now apply Hs. }
    destruct k; intros; cbn [parse_op_if_loop]; rewrite Hp; cbn [obind place ip_stack ip_new ip_is_then oi_if oi_else oi_then_stmts oi_else_stmts].
    + destruct (IH (new ++ [s]) f) as (f' & E). exists f'. rewrite E, <- app_assoc. reflexivity.
    + rewrite IH, <- app_assoc. reflexivity.
    + rewrite IH, <- app_assoc. reflexivity.
  - destruct k; [| |now destruct Hk].
    + intros new f. cbn [parse_op_if_loop]. rewrite step_if by assumption. cbn [obind ip_new ip_stack]. rewrite loop_app, IHa. cbn [obind parse_op_if_loop]. rewrite step_endif by assumption. cbn [obind place ip_stack ip_new ip_is_then oi_if oi_else oi_then_stmts oi_else_stmts app].
      destruct (IH (new ++ [SScriptIf i ta None [] en]) true) as (f' & E). exists f'. rewrite E, <- app_assoc. reflexivity.
    + intros new i' e' th es rest. cbn [parse_op_if_loop]. rewrite step_if by assumption. cbn [obind ip_new ip_stack]. rewrite loop_app, IHa. cbn [obind parse_op_if_loop]. rewrite step_endif by assumption. cbn [obind place ip_stack ip_new ip_is_then oi_if oi_else oi_then_stmts oi_else_stmts app].
      rewrite IH, <- app_assoc. reflexivity.
  - destruct k; [|now destruct Hk|].
    + intros new f. cbn [parse_op_if_loop]. rewrite step_if by assumption. cbn [obind ip_new ip_stack]. rewrite loop_app, IHa. cbn [obind parse_op_if_loop]. rewrite step_else by assumption. cbn [obind oi_if oi_then_stmts oi_else_stmts]. rewrite loop_app, IHb. cbn [obind parse_op_if_loop]. rewrite step_endif by assumption. cbn [obind place ip_stack ip_new ip_is_then oi_if oi_else oi_then_stmts oi_else_stmts app].
      destruct (IH (new ++ [SScriptIf i ta (Some el) tb en]) false) as (f' & E). exists f'. rewrite E, <- app_assoc. reflexivity.
    + intros new i' e' th es rest. cbn [parse_op_if_loop]. rewrite step_if by assumption. cbn [obind ip_new ip_stack]. rewrite loop_app, IHa. cbn [obind parse_op_if_loop]. rewrite step_else by assumption. cbn [obind oi_if oi_then_stmts oi_else_stmts]. rewrite loop_app, IHb. cbn [obind parse_op_if_loop]. rewrite step_endif by assumption. cbn [obind place ip_stack ip_new ip_is_then oi_if oi_else oi_then_stmts oi_else_stmts app].
      rewrite IH, <- app_assoc. reflexivity.
Qed.
Lemma groups_ok l t : groups Outside l t -> parse_op_if l = Ok t.
Proof. intros H. destruct (groups_parse _ _ _ H [] true) as (f' & E). unfold parse_op_if. rewrite E. reflexivity. Qed.
Lemma groups_body k l t : groups k l t -> body t = body l.
Proof.
  induction 1 as [k|k s l t Hs _ IH|k i a ta en l t Hk Hi _ IHa Hen _ IH|k i a ta el b tb en l t Hk Hi _ IHa Hel _ IHb Hen _ IH].
  - reflexivity.
  - unfold body in *. cbn [map concat]. now rewrite IH.
  - unfold body in *. cbn [map concat written]. rewrite map_app, concat_app. cbn [map concat written app]. rewrite IHa, IH, <- !app_assoc. cbn [app]. reflexivity.
  - unfold body in *. cbn [map concat written]. rewrite map_app, concat_app. cbn [map concat written app]. rewrite map_app, concat_app. cbn [map concat written app]. rewrite IHa, IHb, IH, <- !app_assoc. cbn [app]. rewrite <- !app_assoc. reflexivity.
Qed.
Lemma groups_free k l t : groups k l t -> Forall (fun s => forall o, s = SOpcode o -> ~ is_bracket o) t.
Proof. induction 1; constructor; auto; intros o E; discriminate E. Qed.

Scheme stands_m := Minimality for stands Sort Prop
  with stands_expr_m := Minimality for stands_expr Sort Prop
  with block_m := Minimality for block Sort Prop
  with all_stand_m := Minimality for all_stand Sort Prop.
Combined Scheme stands_mut from stands_m, stands_expr_m, block_m, all_stand_m.
Lemma parses : (forall s l, stands R s l -> parse_stmt R s = Ok l) /\ (forall e l, stands_expr R e l -> parse_stmt_expr R e = Ok l) /\
  (forall b t, block R b t -> parse_stmts R b = Ok t) /\ (forall l r, all_stand R l r -> collect R l = Ok r).
Proof.
  apply stands_mut.
  - intros p ns e o Hb Ho. cbn [parse_stmt]. now apply (let_opcode _ ns).
  - intros p n e Hb Ho. cbn [parse_stmt]. now apply let_push.
  - intros e l _ IH. exact IH.
  - intros e l _ IH. exact IH.
  - intros e o H. now apply expr_opcode.
  - intros e H. destruct e; try contradiction. reflexivity.
  - intros b t _ IH. now rewrite block_eq.
  - intros h b t _ IH. rewrite for_eq, IH. reflexivity.
  - intros c b t _ IH. rewrite if_eq, IH. reflexivity.
  - intros c b t e es _ IH _ IHe. rewrite if_eq, IH. cbn [obind]. rewrite IHe. reflexivity.
  - intros l flat t _ IH Hg. unfold parse_stmts. rewrite IH. cbn [obind]. now apply groups_ok.
  - reflexivity.
  - intros s r a b _ IHs _ IHr. rewrite collect_cons, IHs. cbn [obind]. rewrite IHr. reflexivity.
Qed.

(** ** Acceptance *)
Lemma depth_app n a b : depth_after n (a ++ b) = match depth_after n a with Some k => depth_after k b | None => None end.
Proof.
  revert n. induction a as [|s a IH]; intros n; [reflexivity|]. cbn [app depth_after]. destruct s as [|o| | |]; try apply IH.
  destruct (String.eqb (os_ident o) "OP_IF" || String.eqb (os_ident o) "OP_NOTIF"); [apply IH|]. destruct (String.eqb (os_ident o) "OP_ELSE"); [destruct n; [reflexivity|apply IH]|]. destruct (String.eqb (os_ident o) "OP_ENDIF"); [destruct n; [reflexivity|apply IH]|]. apply IH.
Qed.
Definition free (s : stmt) : Prop := forall o, s = SOpcode o -> ~ is_bracket o.
Lemma free_depth l : Forall free l -> forall n, depth_after n l = Some n.
Proof.
  induction 1 as [|s l Hs _ IH]; intros n; [reflexivity|]. cbn [depth_after]. destruct s as [|o| | |]; try apply IH. specialize (Hs o eq_refl). unfold is_bracket, is_if in Hs.
  destruct (String.eqb_spec (os_ident o) "OP_IF"); [tauto|]. destruct (String.eqb_spec (os_ident o) "OP_NOTIF"); [tauto|]. destruct (String.eqb_spec (os_ident o) "OP_ELSE"); [tauto|]. destruct (String.eqb_spec (os_ident o) "OP_ENDIF"); [tauto|]. apply IH.
Qed.
Lemma place_free p s : Forall free (ip_new p) -> free s -> Forall free (ip_new (place p s)).
Proof. intros Hp Hs. unfold place. destruct (ip_stack p); [|exact Hp]. cbn [ip_new]. apply Forall_app. split; [exact Hp|now constructor]. Qed.
Lemma step_free p s p' : parse_op_if_step p s = Ok p' -> Forall free (ip_new p) -> Forall free (ip_new p').
Proof.
  intros E Hp. unfold parse_op_if_step in E. destruct s as [|o| | |]; try (injection E as <-; apply place_free; [exact Hp|]; intros o' Eo; discriminate Eo).
  destruct (String.eqb_spec (os_ident o) "OP_IF") as [|H1]; [injection E as <-; exact Hp|]. destruct (String.eqb_spec (os_ident o) "OP_NOTIF") as [|H2]; [injection E as <-; exact Hp|]. cbn [orb] in E.
  destruct (String.eqb_spec (os_ident o) "OP_ELSE") as [|H3]; [destruct (ip_stack p); [discriminate|]; injection E as <-; exact Hp|].
  destruct (String.eqb_spec (os_ident o) "OP_ENDIF") as [|H4]; [destruct (ip_stack p); [discriminate|]; injection E as <-; apply place_free; [exact Hp|]; intros o' Eo; discriminate Eo|].
  injection E as <-. apply place_free; [exact Hp|]. intros o' Eo. injection Eo as <-. unfold is_bracket, is_if. tauto.
Qed.
Lemma loop_free l : forall p p', parse_op_if_loop p l = Ok p' -> Forall free (ip_new p) -> Forall free (ip_new p').
Proof.
  induction l as [|s l IH]; intros p p' E Hp; cbn [parse_op_if_loop] in E; [now injection E as <-|]. destruct (parse_op_if_step p s) as [p1| |] eqn:E1; try discriminate. cbn [obind] in E. eapply IH; [exact E|]. eapply step_free; eassumption.
Qed.
Lemma parsed_free l t : parse_op_if l = Ok t -> Forall free t.
Proof.
  unfold parse_op_if. destruct (parse_op_if_loop (IfParser [] [] true) l) as [p| |] eqn:E; try discriminate. cbn [obind]. destruct (ip_stack p); [|discriminate]. intros Et. injection Et as <-. eapply loop_free; [exact E|constructor].
Qed.
Lemma parse_iff l : (exists t, parse_op_if l = Ok t) <-> depth_after 0 l = Some O.
Proof.
  unfold parse_op_if. pose proof (parse_depth l (IfParser [] [] true)) as H. cbn [ip_stack length] in H. destruct (depth_after 0 l) as [n|].
  - destruct H as (p & E & Hl). rewrite E. cbn [obind]. destruct (ip_stack p); cbn [length] in Hl; subst n.
    + split; eauto.
    + split; [intros (t & Et); discriminate|discriminate].
  - destruct H as (e & E). rewrite E. cbn [obind]. split; [intros (t & Et); discriminate|discriminate].
Qed.
Lemma opcode_depth o ins outs n : depth_after n [SOpcode o] = depth_after n [SOpcode (OpcodeStmt (os_ident o) ins outs)].
Proof. reflexivity. Qed.
(** What is collected opens and closes the same conditionals as the opcodes written directly. *)
Definition same_depth (a b : list stmt) : Prop := forall n, depth_after n a = depth_after n b.
Lemma head_same e outs o : opcode_line R e outs o -> head_opcode e = [SOpcode (OpcodeStmt (os_ident o) None None)].
Proof. intros (args & H & _). remember (os_ident o) as x. destruct H; reflexivity. Qed.
Lemma block_same b t : parse_stmts R b = Ok t -> same_depth t [].
Proof. unfold parse_stmts. destruct (collect R b) as [l| |]; try discriminate. cbn [obind]. intros E n. apply parsed_free in E. now rewrite free_depth. Qed.
Lemma head_none e : ~ opcode_shaped e -> head_opcode e = [].
Proof. destruct e; cbn; tauto. Qed.
Lemma expr_same e : forall l, parse_stmt_expr R e = Ok l -> same_depth l (head_opcode e).
Proof.
  destruct e as [a f args|p|h b|c b el|b|t]; intros l E.
  - assert (exists o, opcode_line R (ECall a f args) None o /\ l = [SOpcode o]) as (o & Ho & ->).
    { cbn [parse_stmt_expr] in E. destruct (parse_opcode R (ECall a f args) None) as [o| |] eqn:Eo; try discriminate. cbn [obind] in E. injection E as <-. exists o. apply opcode_line_iff in Eo. auto. }
    rewrite (head_same _ _ _ Ho). intros n. apply opcode_depth.
  - assert (exists o, opcode_line R (EPath p) None o /\ l = [SOpcode o]) as (o & Ho & ->).
    { cbn [parse_stmt_expr] in E. destruct (parse_opcode R (EPath p) None) as [o| |] eqn:Eo; try discriminate. cbn [obind] in E. injection E as <-. exists o. apply opcode_line_iff in Eo. auto. }
    rewrite (head_same _ _ _ Ho). intros n. apply opcode_depth.
  - rewrite for_eq in E. destruct (parse_stmts R b); try discriminate. cbn [obind] in E. injection E as <-. intros n. reflexivity.
  - rewrite if_eq in E. destruct (parse_stmts R b); try discriminate. cbn [obind] in E. destruct (match el with Some x => parse_stmt_expr R x | None => Ok [] end); try discriminate. cbn [obind] in E. injection E as <-. intros n. reflexivity.
  - rewrite block_eq in E. now apply block_same in E.
  - injection E as <-. intros n. reflexivity.
Qed.
Lemma stmt_same s l : parse_stmt R s = Ok l -> same_depth l (own s).
Proof.
  destruct s as [p i|e|e|]; cbn [parse_stmt own]; intros E; try now apply expr_same in E; try discriminate.
  - apply let_inv in E as (e & -> & [(ns & o & _ & Ho & ->)|(n & _ & Hs & ->)]).
    + rewrite (head_same _ _ _ Ho). intros k. apply opcode_depth.
    + rewrite head_none by assumption. intros k. reflexivity.
  - discriminate.
Qed.
Lemma collect_same l : forall r, collect R l = Ok r -> same_depth r (concat (map own l)).
Proof.
  induction l as [|s l IH]; intros r E; [injection E as <-; intros n; reflexivity|]. rewrite collect_cons in E. destruct (parse_stmt R s) as [a| |] eqn:Ea; try discriminate. cbn [obind] in E. destruct (collect R l) as [b| |] eqn:Eb; try discriminate. cbn [obind] in E. injection E as <-.
  intros n. cbn [map concat]. rewrite !depth_app, (stmt_same _ _ Ea). destruct (depth_after n (own s)); [|reflexivity]. now apply IH.
Qed.
Scheme acceptable_m := Minimality for acceptable Sort Prop
  with acceptable_expr_m := Minimality for acceptable_expr Sort Prop
  with acceptable_block_m := Minimality for acceptable_block Sort Prop
  with acceptable_all_m := Minimality for acceptable_all Sort Prop.
Combined Scheme acceptable_mut from acceptable_m, acceptable_expr_m, acceptable_block_m, acceptable_all_m.
Lemma accepted : (forall s, acceptable s -> exists l, parse_stmt R s = Ok l) /\ (forall e, acceptable_expr e -> exists l, parse_stmt_expr R e = Ok l) /\
  (forall b, acceptable_block b -> exists t, parse_stmts R b = Ok t) /\ (forall l, acceptable_all l -> exists r, collect R l = Ok r).
Proof.
  apply acceptable_mut.
  - intros p ns e x args Hb Ha. exists [SOpcode (OpcodeStmt x (option_map (map (parse_opcode_input R)) args) (Some ns))]. cbn [parse_stmt]. apply (let_opcode _ ns); [exact Hb|]. exists args. split; [exact Ha|]. split; [now apply arguments_iff|reflexivity].
  - intros p n e Hb Hs. cbn [parse_stmt]. rewrite (let_push _ n) by assumption. eauto.
  - intros e _ IH. exact IH.
  - intros e _ IH. exact IH.
  - intros e x args Ha. exists [SOpcode (OpcodeStmt x (option_map (map (parse_opcode_input R)) args) None)]. apply expr_opcode. exists args. split; [exact Ha|]. split; [now apply arguments_iff|reflexivity].
  - intros e H. destruct e; try contradiction. eexists. reflexivity.
  - intros b _ IH. now rewrite block_eq.
  - intros h b _ (t & E). rewrite for_eq, E. cbn [obind]. eauto.
  - intros c b _ (t & E). rewrite if_eq, E. cbn [obind]. eauto.
  - intros c b e _ (t & E) _ (es & Ee). rewrite if_eq, E. cbn [obind]. rewrite Ee. cbn [obind]. eauto.
  - intros l _ (r & E) Hd. unfold parse_stmts. rewrite E. cbn [obind]. apply parse_iff. now rewrite (collect_same _ _ E).
  - exists []. reflexivity.
  - intros s l _ (a & Ea) _ (b & Eb). rewrite collect_cons, Ea. cbn [obind]. rewrite Eb. cbn [obind]. eauto.
Qed.
Lemma collect_all b : Forall (fun s => forall l, parse_stmt R s = Ok l -> acceptable s) b -> forall r, collect R b = Ok r -> acceptable_all b.
Proof.
  induction 1 as [|s b Hs _ IH]; intros r E; [constructor|]. rewrite collect_cons in E. destruct (parse_stmt R s) as [a| |] eqn:Ea; try discriminate. cbn [obind] in E. destruct (collect R b) as [x| |] eqn:Eb; try discriminate. constructor; [eapply Hs; reflexivity|eapply IH; reflexivity].
Qed.
Lemma block_acceptable b : Forall (fun s => forall l, parse_stmt R s = Ok l -> acceptable s) b -> forall t, parse_stmts R b = Ok t -> acceptable_block b.
Proof.
  intros H t E. unfold parse_stmts in E. destruct (collect R b) as [r| |] eqn:Er; try discriminate. cbn [obind] in E. constructor; [eapply collect_all; eassumption|]. rewrite <- (collect_same _ _ Er). apply parse_iff. eauto.
Qed.
Lemma stmt_acceptable : forall s l, parse_stmt R s = Ok l -> acceptable s.
Proof.
  apply (rust_stmt_ind' (fun e => forall l, parse_stmt_expr R e = Ok l -> acceptable_expr e) (fun s => forall l, parse_stmt R s = Ok l -> acceptable s)).
  - intros a f args l E. cbn [parse_stmt_expr] in E. destruct (parse_opcode R (ECall a f args) None) as [o| |] eqn:Eo; try discriminate. apply opcode_line_iff in Eo as (x & Ha & _). eapply AcOpcode; exact Ha.
  - intros p l E. cbn [parse_stmt_expr] in E. destruct (parse_opcode R (EPath p) None) as [o| |] eqn:Eo; try discriminate. apply opcode_line_iff in Eo as (x & Ha & _). eapply AcOpcode; exact Ha.
  - intros h b IH l E. rewrite for_eq in E. destruct (parse_stmts R b) as [t| |] eqn:Et; try discriminate. apply AcFor. eapply block_acceptable; eassumption.
  - intros c b el IH IHe l E. rewrite if_eq in E. destruct (parse_stmts R b) as [t| |] eqn:Et; try discriminate. cbn [obind] in E. destruct el as [e|].
    + destruct (parse_stmt_expr R e) as [es| |] eqn:Ee; try discriminate. apply AcIfElse; [eapply block_acceptable; eassumption|]. eapply IHe; [reflexivity|exact Ee].
    + apply AcIf. eapply block_acceptable; eassumption.
  - intros b IH l E. rewrite block_eq in E. apply AcBlock. eapply block_acceptable; eassumption.
  - intros t l _. now apply AcPush.
  - intros p i l E. cbn [parse_stmt] in E. apply let_inv in E as (e & -> & [(ns & o & Hb & (args & Ha & _) & _)|(n & Hb & Hs & _)]); [eapply AcLetOpcode; eassumption|eapply AcLetPush; eassumption].
  - intros e IH l E. constructor. eapply IH; exact E.
  - intros e IH l E. constructor. eapply IH; exact E.
  - intros l E. discriminate.
Qed.
Lemma accepts_iff b : (exists t, parse_stmts R b = Ok t) <-> acceptable_block b.
Proof.
  split; [|apply accepted]. intros (t & E). eapply block_acceptable; [|exact E]. apply Forall_forall. intros s _. apply stmt_acceptable.
Qed.
End P.
