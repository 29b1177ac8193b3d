(** Proofs about what the script macro puts out. *)
From Verif Require Import Base BaseLemmas Model_Opcode Model_Script Model_Behavior Model_Macro Spec_Macro Proofs_Macro Model_MacroParse Spec_MacroParse Proofs_MacroParse Proofs_MacroParse2 Model_MacroOut Spec_MacroOut.
Local Open Scope string_scope.
Local Open Scope list_scope.
Local Open Scope Z_scope.

Definition lift {A B} (f : A -> B) (o : outcome A) : outcome B := match o with Ok a => Ok (f a) | Err e => Err e | Panic => Panic end.
Lemma erase_eqs : (forall x b, erase (TForLoop x b) = SForLoop (map erase b)) /\ (forall x t e, erase (TRustIf x t e) = SRustIf (map erase t) (map erase e)) /\
  (forall x i t el e y en, erase (TScriptIf x i t el e y en) = SScriptIf i (map erase t) (option_map snd el) (map erase e) en).
Proof. repeat split. Qed.
Lemma texts_eqs : (forall x b, stmt_texts (TForLoop x b) = make_stmt_token_streams b) /\ (forall x t e, stmt_texts (TRustIf x t e) = make_stmt_token_streams t ++ make_stmt_token_streams e) /\
  (forall x i t el e y en, stmt_texts (TScriptIf x i t el e y en) = x :: make_stmt_token_streams t ++ match el with Some (z, _) => [z] | None => [] end ++ make_stmt_token_streams e ++ [y]).
Proof. repeat split. Qed.

(** ** Texts do not matter to the parser *)
Definition erase_open (o : topen_if) : open_if := OpenIf (to_if o) (option_map snd (to_else o)) (map erase (to_then_stmts o)) (map erase (to_else_stmts o)).
Definition erase_parser (p : tif_parser) : if_parser := IfParser (map erase (tp_new p)) (map erase_open (tp_stack p)) (tp_is_then p).
Lemma place_erase p s : place (erase_parser p) (erase s) = erase_parser (tplace p s).
Proof.
  destruct p as [n [|top rest] b]; unfold place, tplace, erase_parser; cbn [ip_stack ip_new ip_is_then tp_stack tp_new tp_is_then map]; [now rewrite map_app|]. destruct b; unfold erase_open; cbn [to_if to_else to_then_stmts to_else_stmts oi_if oi_else oi_then_stmts oi_else_stmts map tp_new tp_stack tp_is_then]; now rewrite map_app.
Qed.
Lemma step_erase p s : parse_op_if_step (erase_parser p) (erase s) = lift erase_parser (tparse_op_if_step p s).
Proof.
  destruct s as [x o n|x o|x b|x t e|x i t el e y en]; try (cbn [tparse_op_if_step lift]; rewrite <- place_erase; reflexivity).
  cbn [erase parse_op_if_step tparse_op_if_step]. destruct (String.eqb (os_ident o) "OP_IF" || String.eqb (os_ident o) "OP_NOTIF"); [reflexivity|]. destruct (String.eqb (os_ident o) "OP_ELSE").
  - destruct p as [n [|top rest] b]; reflexivity.
  - destruct (String.eqb (os_ident o) "OP_ENDIF"); [|cbn [lift]; now rewrite <- place_erase]. destruct p as [n [|top rest] b]; [reflexivity|]. cbn [tp_stack lift]. rewrite <- place_erase. reflexivity.
Qed.
Lemma loop_erase l : forall p, parse_op_if_loop (erase_parser p) (map erase l) = lift erase_parser (tparse_op_if_loop p l).
Proof. induction l as [|s l IH]; intros p; [reflexivity|]. cbn [map parse_op_if_loop tparse_op_if_loop]. rewrite step_erase. destruct (tparse_op_if_step p s); cbn [lift obind]; [apply IH|reflexivity|reflexivity]. Qed.
Lemma parse_erase l : parse_op_if (map erase l) = lift (map erase) (tparse_op_if l).
Proof.
  unfold parse_op_if, tparse_op_if. change (IfParser [] [] true) with (erase_parser (TIfParser [] [] true)). rewrite loop_erase. destruct (tparse_op_if_loop (TIfParser [] [] true) l) as [p| |]; cbn [lift obind]; [|reflexivity|reflexivity]. destruct p as [n [|top rest] b]; reflexivity.
Qed.
Section P.
Context (R : rust) (S : source).
Lemma tfor_eq h b : tparse_stmt_expr R S (EForLoop h b) = do t <- tparse_stmts R S b; Ok [TForLoop (expr_text R (EForLoop h b)) t].
Proof. unfold tparse_stmts. cbn [tparse_stmt_expr]. fold (tcollect R S). destruct (tcollect R S b); reflexivity. Qed.
Lemma tblock_eq b : tparse_stmt_expr R S (EBlock b) = tparse_stmts R S b.
Proof. reflexivity. Qed.
Lemma tif_eq c b el : tparse_stmt_expr R S (EIf c b el) = do t <- tparse_stmts R S b; do es <- match el with Some x => tparse_stmt_expr R S x | None => Ok [] end; Ok [TRustIf (expr_text R (EIf c b el)) t es].
Proof. unfold tparse_stmts. cbn [tparse_stmt_expr]. fold (tcollect R S). destruct (tcollect R S b); reflexivity. Qed.
Lemma tcollect_cons s l : tcollect R S (s :: l) = do a <- tparse_stmt R S s; do b <- tcollect R S l; Ok (a ++ b).
Proof. reflexivity. Qed.
Lemma collect_erase b : Forall (fun s => parse_stmt R s = lift (map erase) (tparse_stmt R S s)) b -> collect R b = lift (map erase) (tcollect R S b).
Proof.
  induction 1 as [|s b Hs _ IH]; [reflexivity|]. rewrite collect_cons, tcollect_cons, Hs, IH. destruct (tparse_stmt R S s); cbn [lift obind]; [|reflexivity|reflexivity]. destruct (tcollect R S b); cbn [lift obind]; [now rewrite map_app|reflexivity|reflexivity].
Qed.
Lemma stmts_erase_of b : Forall (fun s => parse_stmt R s = lift (map erase) (tparse_stmt R S s)) b -> parse_stmts R b = lift (map erase) (tparse_stmts R S b).
Proof. intros H. unfold parse_stmts, tparse_stmts. rewrite (collect_erase _ H). destruct (tcollect R S b); cbn [lift obind]; [apply parse_erase|reflexivity|reflexivity]. Qed.
Lemma stmt_erase : forall s, parse_stmt R s = lift (map erase) (tparse_stmt R S s).
Proof.
  apply (rust_stmt_ind' (fun e => parse_stmt_expr R e = lift (map erase) (tparse_stmt_expr R S e)) (fun s => parse_stmt R s = lift (map erase) (tparse_stmt R S s))).
  - intros a f args. cbn [parse_stmt_expr tparse_stmt_expr]. destruct (parse_opcode R (ECall a f args) None); reflexivity.
  - intros p. cbn [parse_stmt_expr tparse_stmt_expr]. destruct (parse_opcode R (EPath p) None); reflexivity.
  - intros h b H. rewrite for_eq, tfor_eq, (stmts_erase_of _ H). destruct (tparse_stmts R S b); reflexivity.
  - intros c b el H He. rewrite if_eq, tif_eq, (stmts_erase_of _ H). destruct (tparse_stmts R S b); cbn [lift obind]; [|reflexivity|reflexivity]. destruct el as [e|]; [|reflexivity]. rewrite (He e eq_refl). destruct (tparse_stmt_expr R S e); reflexivity.
  - intros b H. rewrite block_eq, tblock_eq. now apply stmts_erase_of.
  - reflexivity.
  - intros p i. cbn [parse_stmt tparse_stmt]. unfold parse_let, tparse_let. destruct i as [e|]; [|reflexivity]. destruct (let_outputs p) as [ns| |]; cbn [obind lift]; [|reflexivity|reflexivity]. destruct (is_call_or_path e); [destruct (parse_opcode R e (Some ns)); reflexivity|]. destruct ns as [|n [|]]; reflexivity.
  - intros e H. exact H.
  - intros e H. exact H.
  - reflexivity.
Qed.
Lemma stmts_erase b : parse_stmts R b = lift (map erase) (tparse_stmts R S b).
Proof. apply stmts_erase_of. apply Forall_forall. intros s _. apply stmt_erase. Qed.

(** ** The texts collected are those of the ops, in order *)
Fixpoint twritten (s : tstmt) : list (string * stmt) :=
  let all := fix all (l : list tstmt) : list (string * stmt) := match l with [] => [] | x :: r => twritten x ++ all r end in
  match s with
  | TScriptIf x i t el e y en => (x, SOpcode i) :: all t ++ match el with Some (z, o) => [(z, SOpcode o)] | None => [] end ++ all e ++ [(y, SOpcode en)]
  | TPush x o n => [(x, SPush o n)]
  | TOpcode x o => [(x, SOpcode o)]
  | TForLoop x b => [(x, SForLoop (map erase b))]
  | TRustIf x t e => [(x, SRustIf (map erase t) (map erase e))]
  end.
Definition tbody (l : list tstmt) : list (string * stmt) := flat_map twritten l.
Lemma twritten_if x i t el e y en : twritten (TScriptIf x i t el e y en) = (x, SOpcode i) :: tbody t ++ match el with Some (z, o) => [(z, SOpcode o)] | None => [] end ++ tbody e ++ [(y, SOpcode en)].
Proof. reflexivity. Qed.
End P.
Section Tree.
Context (P : tstmt -> Prop) (H1 : forall x o n, P (TPush x o n)) (H2 : forall x o, P (TOpcode x o)) (H3 : forall x b, Forall P b -> P (TForLoop x b)) (H4 : forall x t e, Forall P t -> Forall P e -> P (TRustIf x t e))
  (H5 : forall x i t el e y en, Forall P t -> Forall P e -> P (TScriptIf x i t el e y en)).
Fixpoint tstmt_ind' (s : tstmt) : P s :=
  let all := fix all (l : list tstmt) : Forall P l := match l with [] => Forall_nil _ | x :: r => Forall_cons _ (tstmt_ind' x) (all r) end in
  match s with
  | TPush x o n => H1 x o n
  | TOpcode x o => H2 x o
  | TForLoop x b => H3 x b (all b)
  | TRustIf x t e => H4 x t e (all t) (all e)
  | TScriptIf x i t el e y en => H5 x i t el e y en (all t) (all e)
  end.
End Tree.
Lemma flat_F {A B C} (f : A -> list B) (g : A -> list C) (h : B -> C) l : Forall (fun a => map h (f a) = g a) l -> map h (flat_map f l) = concat (map g l).
Proof. induction 1 as [|a l Ha _ IH]; [reflexivity|]. cbn [map concat flat_map]. now rewrite map_app, Ha, IH. Qed.
Lemma written_eq i t el e en : written (SScriptIf i t el e en) = SOpcode i :: body t ++ match el with Some o => [SOpcode o] | None => [] end ++ body e ++ [SOpcode en].
Proof. reflexivity. Qed.
Lemma twritten_snd s : map snd (twritten s) = written (erase s).
Proof.
  induction s as [x o n|x o|x b H|x t e Ht He|x i t el e y en Ht He] using tstmt_ind'; try reflexivity.
  destruct erase_eqs as (_ & _ & ->). rewrite twritten_if, written_eq. unfold body, tbody. cbn [map snd]. rewrite !map_app, !map_map, (flat_F _ _ _ _ Ht), (flat_F _ _ _ _ He). destruct el as [[z o]|]; reflexivity.
Qed.
Lemma tbody_snd l : map snd (tbody l) = body (map erase l).
Proof. unfold tbody, body. rewrite map_map. apply flat_F. apply Forall_forall. intros s _. apply twritten_snd. Qed.
Definition temits (x : string * stmt) : bool := emits (snd x).
Lemma filter_flat {A B} (f : A -> bool) (g : B -> list A) l : filter f (flat_map g l) = flat_map (fun x => filter f (g x)) l.
Proof. induction l as [|a l IH]; [reflexivity|]. cbn [flat_map]. now rewrite filter_app, IH. Qed.
Inductive tproper : tstmt -> Prop :=
| TpPush x o n : tproper (TPush x o n)
| TpOpcode x o : tproper (TOpcode x o)
| TpFor x b : tproper (TForLoop x b)
| TpRustIf x t e : tproper (TRustIf x t e)
| TpIf x i t el e y en : is_if i -> os_ident en = "OP_ENDIF" -> (forall z o, el = Some (z, o) -> os_ident o = "OP_ELSE") -> Forall tproper t -> Forall tproper e -> tproper (TScriptIf x i t el e y en).
Lemma flat_texts (f g : tstmt -> list string) l : Forall (fun s => Forall simple (written (erase s)) -> tproper s -> f s = g s) l -> Forall simple (body (map erase l)) -> Forall tproper l -> flat_map f l = flat_map g l.
Proof.
  induction 1 as [|s l Hs _ IH]; intros HS HP; [reflexivity|]. cbn [flat_map]. unfold body in HS. cbn [map concat] in HS. apply Forall_app in HS as (HS1 & HS2). inversion HP; subst. rewrite Hs by assumption. f_equal. now apply IH.
Qed.
Lemma map_flat {A B C} (f : B -> C) (g : A -> list B) l : map f (flat_map g l) = flat_map (fun x => map f (g x)) l.
Proof. induction l as [|a l IH]; [reflexivity|]. cbn [flat_map]. now rewrite map_app, IH. Qed.
Lemma twritten_texts s : Forall simple (written (erase s)) -> tproper s -> map fst (filter temits (twritten s)) = stmt_texts s.
Proof.
  induction s as [x o n|x o|x b H|x t e Ht He|x i t el e y en Ht He] using tstmt_ind'; intros HS HP.
  - reflexivity.
  - cbn. unfold temits, emits. cbn. destruct (String.eqb (os_ident o) "transmute"); reflexivity.
  - inversion HS as [|? ? F]. destruct F.
  - inversion HS as [|? ? F]. destruct F.
  - destruct texts_eqs as (_ & _ & ->). rewrite twritten_if. destruct erase_eqs as (_ & _ & Ee). rewrite Ee, written_eq in HS. inversion HP as [| | | |? ? ? ? ? ? ? Hi Hn Hel Pt Pe]; subst. inversion HS as [|? ? _ HS1]; subst. apply Forall_app in HS1 as (St & HS2). apply Forall_app in HS2 as (_ & HS3). apply Forall_app in HS3 as (Se & _).
    assert (Ei : emits (SOpcode i) = true) by (unfold emits; destruct Hi as [-> | ->]; reflexivity). assert (En : emits (SOpcode en) = true) by (unfold emits; rewrite Hn; reflexivity).
    cbn [filter]. unfold temits at 1. cbn [snd]. rewrite Ei. cbn [map fst]. f_equal. rewrite !filter_app, !map_app. unfold tbody, make_stmt_token_streams. f_equal; [|f_equal; [|f_equal]].
    + rewrite filter_flat, map_flat. apply flat_texts; assumption.
    + destruct el as [[z o]|]; [|reflexivity]. cbn [filter]. unfold temits. cbn [snd]. unfold emits. rewrite (Hel z o eq_refl). reflexivity.
    + rewrite filter_flat, map_flat. apply flat_texts; assumption.
    + cbn [filter]. unfold temits. cbn [snd]. rewrite En. reflexivity.
Qed.
Lemma tbody_texts l : Forall simple (body (map erase l)) -> Forall tproper l -> map fst (filter temits (tbody l)) = make_stmt_token_streams l.
Proof. intros HS HP. unfold tbody, make_stmt_token_streams. rewrite filter_flat, map_flat. apply flat_texts; [|assumption..]. apply Forall_forall. intros s _. apply twritten_texts. Qed.
(** the parser makes proper trees *)
Definition open_proper (o : topen_if) : Prop := is_if (to_if o) /\ (forall z c, to_else o = Some (z, c) -> os_ident c = "OP_ELSE") /\ Forall tproper (to_then_stmts o) /\ Forall tproper (to_else_stmts o).
Definition parser_proper (p : tif_parser) : Prop := Forall tproper (tp_new p) /\ Forall open_proper (tp_stack p).
Lemma place_proper p s : parser_proper p -> tproper s -> parser_proper (tplace p s).
Proof.
  intros (Hn & Hs) Ht. unfold tplace. destruct p as [n [|top rest] b]; cbn [tp_new tp_stack tp_is_then] in *.
  - split; cbn; [apply Forall_app; split; [exact Hn|now repeat constructor]|constructor].
  - inversion Hs as [|? ? (H1 & H2 & H3 & H4) Hr]; subst. destruct b; (split; [exact Hn|]); cbn [tp_stack]; (constructor; [|exact Hr]); repeat split; cbn; try assumption; apply Forall_app; (split; [assumption|now repeat constructor]).
Qed.
Lemma step_proper p s p' : parser_proper p -> tproper s -> tparse_op_if_step p s = Ok p' -> parser_proper p'.
Proof.
  intros Hp Hs E. destruct s as [x o n|x o|x b|x t e|x i t el e y en]; cbn [tparse_op_if_step] in E; try (injection E as <-; now apply place_proper).
  destruct (String.eqb_spec (os_ident o) "OP_IF") as [EI|NI]; cbn [orb] in E.
  - injection E as <-. destruct Hp as (Hn & Hst). split; [exact Hn|]. cbn. constructor; [|exact Hst]. repeat split; cbn; try constructor; [exact EI|discriminate].
  - destruct (String.eqb_spec (os_ident o) "OP_NOTIF") as [EN|NN].
    + injection E as <-. destruct Hp as (Hn & Hst). split; [exact Hn|]. cbn. constructor; [|exact Hst]. split; [now right|]. repeat split; cbn; try constructor. discriminate.
    + destruct (String.eqb_spec (os_ident o) "OP_ELSE") as [EE|NE].
      * destruct p as [n [|top rest] b]; [discriminate|]. cbn in E. injection E as <-. destruct Hp as (Hn & Hst). cbn in Hn, Hst. inversion Hst as [|? ? (H1 & H2 & H3 & H4) Hr]; subst. split; [exact Hn|]. cbn. constructor; [|exact Hr]. repeat split; cbn; try assumption. intros z c Q. injection Q as <- <-. exact EE.
      * destruct (String.eqb_spec (os_ident o) "OP_ENDIF") as [ED|ND]; [|injection E as <-; now apply place_proper]. destruct p as [n [|top rest] b]; [discriminate|]. cbn in E. injection E as <-. destruct Hp as (Hn & Hst). cbn in Hn, Hst. inversion Hst as [|? ? (H1 & H2 & H3 & H4) Hr]; subst. apply place_proper; [split; assumption|]. now constructor.
Qed.
Lemma loop_proper l : forall p p', parser_proper p -> Forall tproper l -> tparse_op_if_loop p l = Ok p' -> parser_proper p'.
Proof. induction l as [|s l IH]; intros p p' Hp Hl E; cbn [tparse_op_if_loop] in E; [injection E as <-; exact Hp|]. inversion Hl; subst. destruct (tparse_op_if_step p s) as [q| |] eqn:Eq; try discriminate. cbn [obind] in E. eapply IH; [|eassumption|exact E]. eapply step_proper; eassumption. Qed.
Lemma op_if_proper l t : Forall tproper l -> tparse_op_if l = Ok t -> Forall tproper t.
Proof.
  intros Hl E. unfold tparse_op_if in E. destruct (tparse_op_if_loop (TIfParser [] [] true) l) as [p| |] eqn:Ep; try discriminate. cbn [obind] in E. apply loop_proper in Ep; [|split; constructor|exact Hl]. destruct (tp_stack p); [|discriminate]. injection E as <-. apply Ep.
Qed.
Lemma parsed_proper R S : forall s l, tparse_stmt R S s = Ok l -> Forall tproper l.
Proof.
  assert (HC : forall b, Forall (fun s => forall l, tparse_stmt R S s = Ok l -> Forall tproper l) b -> forall t, tparse_stmts R S b = Ok t -> Forall tproper t).
  { intros b HF t E. unfold tparse_stmts in E. destruct (tcollect R S b) as [l| |] eqn:El; try discriminate. cbn [obind] in E. eapply op_if_proper; [|exact E]. clear E t. revert l El. induction HF as [|s b Hs _ IH]; intros l El; [injection El as <-; constructor|]. rewrite tcollect_cons in El. destruct (tparse_stmt R S s) as [a| |] eqn:Ea; try discriminate. cbn [obind] in El. destruct (tcollect R S b) as [c| |]; try discriminate. cbn [obind] in El. injection El as <-. apply Forall_app. split; [now apply Hs|now apply IH]. }
  apply (rust_stmt_ind' (fun e => forall l, tparse_stmt_expr R S e = Ok l -> Forall tproper l) (fun s => forall l, tparse_stmt R S s = Ok l -> Forall tproper l)).
  - intros a f args l E. cbn [tparse_stmt_expr] in E. destruct (parse_opcode R (ECall a f args) None); try discriminate. injection E as <-. repeat constructor.
  - intros p l E. cbn [tparse_stmt_expr] in E. destruct (parse_opcode R (EPath p) None); try discriminate. injection E as <-. repeat constructor.
  - intros h b H l E. rewrite tfor_eq in E. destruct (tparse_stmts R S b); try discriminate. injection E as <-. repeat constructor.
  - intros c b el H He l E. rewrite tif_eq in E. destruct (tparse_stmts R S b); try discriminate. cbn [obind] in E. destruct (match el with Some x => tparse_stmt_expr R S x | None => Ok [] end); try discriminate. injection E as <-. repeat constructor.
  - intros b H l E. rewrite tblock_eq in E. now apply (HC b).
  - intros t l E. injection E as <-. repeat constructor.
  - intros p i l E. cbn [tparse_stmt] in E. unfold tparse_let in E. destruct i as [e|]; [|discriminate]. destruct (let_outputs p) as [ns| |]; try discriminate. cbn [obind] in E. destruct (is_call_or_path e); [destruct (parse_opcode R e (Some ns)); try discriminate; injection E as <-; repeat constructor|]. destruct ns as [|n [|]]; try discriminate. injection E as <-. repeat constructor.
  - intros e H. exact H.
  - intros e H. exact H.
  - discriminate.
Qed.
Lemma stmts_proper R S b t : tparse_stmts R S b = Ok t -> Forall tproper t.
Proof. intros E. pose proof (parsed_proper R S (StExpr (EBlock b)) t) as H. apply H. exact E. Qed.
