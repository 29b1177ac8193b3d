(** Lemmas for the script macro: bracket parsing and predicates. *)
From Verif Require Import Base BaseLemmas Model_ByteArray Model_Opcode Model_Script Model_Macro Spec_Macro.
Local Open Scope string_scope.
Local Open Scope list_scope.
Local Open Scope Z_scope.

Lemma stmt_ind' (P : stmt -> Prop) :
  (forall e n, P (SPush e n)) -> (forall o, P (SOpcode o)) -> (forall b, P (SForLoop b)) -> (forall a b, P (SRustIf a b)) ->
  (forall i t e es en, Forall P t -> Forall P es -> P (SScriptIf i t e es en)) -> forall s, P s.
Proof.
  intros H1 H2 H3 H4 H5. fix IH 1. intros [e n|o|b|a b|i t e es en]; [apply H1|apply H2|apply H3|apply H4|].
  apply H5; [induction t as [|x t I]|induction es as [|x es I]]; constructor; auto.
Qed.

(** ** The bracket parser *)
Lemma is_if_eqb o : is_if o -> (String.eqb (os_ident o) "OP_IF" || String.eqb (os_ident o) "OP_NOTIF") = true.
Proof. intros [H|H]; rewrite H; reflexivity. Qed.
Lemma loop_app p a b : parse_op_if_loop p (a ++ b) = do p' <- parse_op_if_loop p a; parse_op_if_loop p' b.
Proof. revert p. induction a as [|s a IH]; intros p; [reflexivity|]. cbn [app parse_op_if_loop]. destruct (parse_op_if_step p s); cbn [obind]; auto. Qed.
Lemma step_leaf p o : ~ is_bracket o -> parse_op_if_step p (SOpcode o) = Ok (place p (SOpcode o)).
Proof.
  intros H. unfold parse_op_if_step. unfold is_bracket, is_if in H.
  destruct (String.eqb_spec (os_ident o) "OP_IF"); [tauto|]. destruct (String.eqb_spec (os_ident o) "OP_NOTIF"); [tauto|]. cbn [orb].
  destruct (String.eqb_spec (os_ident o) "OP_ELSE"); [tauto|]. destruct (String.eqb_spec (os_ident o) "OP_ENDIF"); [tauto|]. reflexivity.
Qed.
Lemma step_if p o : is_if o -> parse_op_if_step p (SOpcode o) = Ok (IfParser (ip_new p) (OpenIf o None [] [] :: ip_stack p) true).
Proof. intros H. unfold parse_op_if_step. now rewrite is_if_eqb. Qed.
Lemma step_else new o top rest f : os_ident o = "OP_ELSE" -> parse_op_if_step (IfParser new (top :: rest) f) (SOpcode o) =
  Ok (IfParser new (OpenIf (oi_if top) (Some o) (oi_then_stmts top) (oi_else_stmts top) :: rest) false).
Proof. intros H. unfold parse_op_if_step. rewrite H. reflexivity. Qed.
Lemma step_endif new o top rest f : os_ident o = "OP_ENDIF" -> parse_op_if_step (IfParser new (top :: rest) f) (SOpcode o) =
  Ok (place (IfParser new rest f) (SScriptIf (oi_if top) (oi_then_stmts top) (oi_else top) (oi_else_stmts top) o)).
Proof. intros H. unfold parse_op_if_step. rewrite H. reflexivity. Qed.

(** What one written tree does to the parser, in any context. *)
Definition placed (r : stmt * option bool) (p : if_parser) : if_parser :=
  place (IfParser (ip_new p) (ip_stack p) (match snd r with Some f => f | None => ip_is_then p end)) (fst r).
Lemma placed_list l : (forall s, In s l -> forall p, parse_op_if_loop p (written s) = Ok (placed (misplace s) p)) ->
  forall new top rest f t e, oi_then_stmts top = t -> oi_else_stmts top = e ->
  parse_op_if_loop (IfParser new (top :: rest) f) (body l) =
  let '(t', e', f') := fold_left deal (map misplace l) (t, e, f) in Ok (IfParser new (OpenIf (oi_if top) (oi_else top) t' e' :: rest) f').
Proof.
  induction l as [|s l IH]; intros HL new top rest f t e <- <-; [destruct top; reflexivity|]. unfold body. cbn [map concat fold_left]. rewrite loop_app, HL by now left. cbn [obind].
  unfold placed. destruct (misplace s) as [s' fo] eqn:E. cbn [fst snd ip_new ip_stack ip_is_then]. set (f' := match fo with Some x => x | None => f end).
  unfold place. cbn [ip_stack ip_new ip_is_then]. unfold deal at 2. cbn [fst snd]. fold f'.
  destruct f'; erewrite IH; try reflexivity; intros x Hx; apply HL; now right.
Qed.
Lemma placed_stmt s : proper s -> forall p, parse_op_if_loop p (written s) = Ok (placed (misplace s) p).
Proof.
  induction s as [e n|o|b|a b|i t e es en IHt IHe] using stmt_ind'; intros Hp p.
  - destruct p as [new [|top rest] f]; reflexivity.
  - inversion Hp; subst. cbn [written parse_op_if_loop]. rewrite step_leaf by assumption. cbn [obind misplace]. destruct p; reflexivity.
  - destruct p as [new [|top rest] f]; reflexivity.
  - destruct p as [new [|top rest] f]; reflexivity.
  - inversion Hp as [| | | |? ? ? ? ? Hi Ht He Hn Hes Hen]; subst. cbn [written parse_op_if_loop]. rewrite step_if by assumption. cbn [obind]. rewrite loop_app. fold (body t). fold (body es).
    rewrite (placed_list t) with (t := []) (e := []); [|intros s Hs; rewrite Forall_forall in IHt, Ht; auto|reflexivity|reflexivity].
    cbn [misplace]. destruct (fold_left deal (map misplace t) ([], [], true)) as [[t1 e1] f1]. cbn [obind oi_if oi_else]. rewrite loop_app.
    assert (exists pe, parse_op_if_loop (IfParser (ip_new p) (OpenIf i None t1 e1 :: ip_stack p) f1) (match e with Some o => [SOpcode o] | None => [] end) = Ok pe /\
      pe = IfParser (ip_new p) (OpenIf i e t1 e1 :: ip_stack p) (match e with Some _ => false | None => f1 end)) as (pe & Epe & ->).
    { destruct e as [o|]; [|eexists; split; reflexivity]. cbn [parse_op_if_loop]. rewrite step_else by auto. eexists. split; reflexivity. }
    rewrite Epe. cbn [obind]. rewrite loop_app.
    rewrite (placed_list es) with (t := t1) (e := e1); [|intros s Hs; rewrite Forall_forall in IHe, Hes; auto|reflexivity|reflexivity].
    destruct (fold_left deal (map misplace es) (t1, e1, match e with Some _ => false | None => f1 end)) as [[t2 e2] f2]. cbn [obind parse_op_if_loop]. rewrite step_endif by assumption. cbn [obind oi_if oi_else oi_then_stmts oi_else_stmts]. reflexivity.
Qed.
Lemma placed_top l : Forall proper l -> forall new f, exists f', parse_op_if_loop (IfParser new [] f) (body l) = Ok (IfParser (new ++ map (fun s => fst (misplace s)) l) [] f').
Proof.
  induction 1 as [|s l Hs _ IH]; intros new f; [exists f; cbn; now rewrite app_nil_r|]. unfold body. cbn [map concat]. rewrite loop_app, placed_stmt by assumption. cbn [obind]. unfold placed, place. cbn [ip_stack ip_new ip_is_then].
  destruct (IH (new ++ [fst (misplace s)]) (match snd (misplace s) with Some x => x | None => f end)) as (f' & E). exists f'. unfold body in E. rewrite E, <- app_assoc. reflexivity.
Qed.
Lemma parse_exact l : Forall proper l -> parse_op_if (body l) = Ok (map (fun s => fst (misplace s)) l).
Proof. intros H. unfold parse_op_if. destruct (placed_top l H [] true) as (f & E). rewrite E. reflexivity. Qed.

Definition has_else (s : stmt) : option bool := match s with SScriptIf _ _ e _ _ => Some (match e with Some _ => false | None => true end) | _ => None end.
Lemma deal_all (l : list stmt) (flag : bool) : Forall (fun s => misplace s = (s, has_else s)) l -> Forall (if flag then else_free else else_full) l ->
  forall t e, fold_left deal (map misplace l) (t, e, flag) = if flag then (t ++ l, e, flag) else (t, e ++ l, flag).
Proof.
  induction 1 as [|s l Hs _ IH]; intros HF t e; [cbn; rewrite !app_nil_r; destruct flag; reflexivity|]. inversion HF as [|? ? Hf HF']; subst. cbn [map fold_left]. rewrite Hs.
  assert ((match has_else s with Some f => f | None => flag end) = flag) as E. { destruct flag, s as [| | | |? ? [?|] ? ?]; cbn in *; tauto. }
  unfold deal at 2. cbn [fst snd]. rewrite E. destruct flag; rewrite IH by assumption; rewrite <- app_assoc; reflexivity.
Qed.
Lemma misplace_ok s : proper s -> nesting_ok s -> misplace s = (s, has_else s).
Proof.
  induction s as [e n|o|b|a b|i t e es en IHt IHe] using stmt_ind'; intros Hp Hn; try reflexivity.
  inversion Hp as [| | | |? ? ? ? ? Hi Ht He Hno Hes Hen]; inversion Hn as [| | | |? ? ? ? ? Nt Ft Ne Fe]; subst. cbn [misplace].
  assert (A : Forall (fun s => misplace s = (s, has_else s)) t). { rewrite Forall_forall in *. intros x Hx. auto. }
  assert (B : Forall (fun s => misplace s = (s, has_else s)) es). { rewrite Forall_forall in *. intros x Hx. auto. }
  rewrite (deal_all t true A Ft). cbn [app]. destruct e as [o|].
  - rewrite (deal_all es false B Fe). reflexivity.
  - rewrite (Hno eq_refl) in *. reflexivity.
Qed.

(** Acceptance. *)
Lemma place_depth p s : length (ip_stack (place p s)) = length (ip_stack p).
Proof. unfold place. destruct (ip_stack p) as [|top rest]; [reflexivity|]. destruct (ip_is_then p); reflexivity. Qed.
Lemma parse_depth l : forall p, match depth_after (length (ip_stack p)) l with
  | Some n => exists p', parse_op_if_loop p l = Ok p' /\ length (ip_stack p') = n
  | None => exists e, parse_op_if_loop p l = Err e
  end.
Proof.
  induction l as [|s l IH]; intros p; [cbn; eauto|]. assert (Hq : forall s', parse_op_if_step p s' = Ok (place p s') -> match depth_after (length (ip_stack p)) l with
    | Some n => exists p', parse_op_if_loop p (s' :: l) = Ok p' /\ length (ip_stack p') = n
    | None => exists e, parse_op_if_loop p (s' :: l) = Err e end).
  { intros s' E. cbn [parse_op_if_loop]. rewrite E. cbn [obind]. specialize (IH (place p s')). rewrite place_depth in IH. exact IH. }
  destruct s as [e n|o|b|a b|i t e es en]; try (apply Hq; reflexivity).
  cbn [depth_after parse_op_if_loop]. unfold parse_op_if_step.
  destruct (String.eqb (os_ident o) "OP_IF" || String.eqb (os_ident o) "OP_NOTIF"). { cbn [obind]. exact (IH (IfParser (ip_new p) (OpenIf o None [] [] :: ip_stack p) true)). }
  destruct (String.eqb (os_ident o) "OP_ELSE").
  { destruct (ip_stack p) as [|top rest] eqn:E; [cbn; eauto|]. cbn [length obind]. exact (IH (IfParser (ip_new p) (OpenIf (oi_if top) (Some o) (oi_then_stmts top) (oi_else_stmts top) :: rest) false)). }
  destruct (String.eqb (os_ident o) "OP_ENDIF").
  { destruct (ip_stack p) as [|top rest] eqn:E; [cbn; eauto|]. cbn [length obind]. set (q := place _ _). specialize (IH q). unfold q in IH at 1. rewrite place_depth in IH. exact IH. }
  cbn [obind]. specialize (IH (place p (SOpcode o))). rewrite place_depth in IH. exact IH.
Qed.

(** ** Predicates *)
Lemma holds_spec p l : holds p l = true <-> p = [] \/ exists c, In c p /\ forall a i, In a c -> In i l -> var_name i = var_name a -> is_positive i = is_positive a.
Proof.
  unfold holds. destruct p as [|c0 p0]; [split; auto|]. set (p := c0 :: p0). rewrite existsb_exists. split.
  - intros (c & Hc & H). right. exists c. split; [exact Hc|]. intros a i Ha Hi E. rewrite forallb_forall in H. specialize (H a Ha). rewrite forallb_forall in H. specialize (H i Hi). rewrite E, String.eqb_refl in H. cbn in H. now apply eqb_prop in H.
  - intros [H|(c & Hc & H)]; [discriminate|]. exists c. split; [exact Hc|]. apply forallb_forall. intros a Ha. apply forallb_forall. intros i Hi. destruct (String.eqb_spec (var_name i) (var_name a)) as [E|E]; [|reflexivity]. cbn [negb orb]. rewrite (H a i Ha Hi E). apply eqb_reflx.
Qed.
Lemma sat_holds s p l : satisfies s p -> (forall i, In i l -> literal s i) -> holds p l = true.
Proof.
  intros [->|(c & Hc & H)] Hl; [reflexivity|]. apply holds_spec. right. exists c. split; [exact Hc|]. intros a i Ha Hi E. specialize (H a Ha). specialize (Hl i Hi). unfold literal in *. congruence.
Qed.

(** Both directions of [holds] as satisfiability. *)
Fixpoint lookup_atom (l : list atom) (n : string) : option bool :=
  match l with [] => None | a :: r => if String.eqb (var_name a) n then Some (is_positive a) else lookup_atom r n end.
Lemma lookup_in l a : consistent l -> In a l -> lookup_atom l (var_name a) = Some (is_positive a).
Proof.
  intros Hc Ha. assert (exists b, In b l /\ var_name b = var_name a /\ lookup_atom l (var_name a) = Some (is_positive b)) as (b & Hb & En & El).
  { clear Hc. induction l as [|x l IH]; [destruct Ha|]. cbn [lookup_atom]. destruct (String.eqb_spec (var_name x) (var_name a)) as [E|E]; [exists x; split; [now left|auto]|].
    destruct Ha as [->|Ha]; [congruence|]. destruct (IH Ha) as (b & Hb & ? & ?). exists b. split; [now right|auto]. }
  rewrite El. f_equal. auto.
Qed.
Lemma holds_sat p l : consistent l -> (forall c, In c p -> consistent c) -> holds p l = true -> exists s, satisfies s p /\ forall i, In i l -> literal s i.
Proof.
  intros Hl Hp H. apply holds_spec in H. destruct H as [->|(c & Hc & H)].
  - exists (fun n => match lookup_atom l n with Some b => b | None => false end). split; [now left|]. intros i Hi. unfold literal. now rewrite lookup_in.
  - exists (fun n => match lookup_atom (l ++ c) n with Some b => b | None => false end).
    assert (Hlc : consistent (l ++ c)). { intros a b Ha Hb E. apply in_app_or in Ha, Hb. destruct Ha as [Ha|Ha], Hb as [Hb|Hb]; [now apply Hl|now apply H|symmetry; now apply H|now apply (Hp c Hc)]. }
    split; [right; exists c; split; [exact Hc|]; intros a Ha|intros a Ha]; unfold literal; rewrite lookup_in; auto using in_or_app.
Qed.
Lemma holds_mono p l l' : (forall i, In i l -> In i l') -> holds p l' = true -> holds p l = true.
Proof. intros H Hh. apply holds_spec in Hh. apply holds_spec. destruct Hh as [->|(c & Hc & Hh)]; [now left|]. right. exists c. split; auto. Qed.

(** ** Predicate texts *)
Lemma join_cons sep x y r : join sep (x :: y :: r) = x ++ sep ++ join sep (y :: r).
Proof. reflexivity. Qed.
Lemma split2_step c cur x y r : split2 c cur (x :: y :: r) = if (x =? c) && (y =? c) then rev cur :: split2 c [] r else split2 c (x :: cur) (y :: r).
Proof. reflexivity. Qed.
Lemma split2_ne c cur s : split2 c cur s <> [].
Proof.
  revert cur. induction s as [s IH] using (induction_ltof1 _ (@length Z)). unfold ltof in IH. intros cur. destruct s as [|x [|y r]]; [discriminate|discriminate|].
  rewrite split2_step. destruct ((x =? c) && (y =? c)); [discriminate|]. apply IH. cbn. lia.
Qed.
Lemma split2_join c cur s : join [c; c] (split2 c cur s) = rev cur ++ s.
Proof.
  revert cur. induction s as [s IH] using (induction_ltof1 _ (@length Z)). unfold ltof in IH. intros cur. destruct s as [|x [|y r]]; [cbn; now rewrite app_nil_r|reflexivity|].
  rewrite split2_step. destruct ((x =? c) && (y =? c)) eqn:E.
  - apply andb_prop in E. destruct E as [E1 E2]. apply Z.eqb_eq in E1, E2. subst. destruct (split2 c [] r) as [|h t] eqn:E; [now apply split2_ne in E|].
    rewrite join_cons, <- E, IH by (cbn; lia). reflexivity.
  - rewrite IH by (cbn; lia). cbn [rev]. now rewrite <- app_assoc.
Qed.
Lemma split2_piece c x : forall cur rest, ~ In c x -> split2 c cur (x ++ c :: c :: rest) = (rev cur ++ x) :: split2 c [] rest.
Proof.
  induction x as [|a x IH]; intros cur rest H; [cbn [app]; rewrite split2_step, Z.eqb_refl, app_nil_r; reflexivity|]. assert (a <> c) by (intros ->; apply H; now left).
  cbn [app]. destruct (x ++ c :: c :: rest) as [|y r] eqn:E; [destruct x; discriminate|]. rewrite split2_step. replace (a =? c) with false by lia. cbn [andb]. rewrite <- E, IH by (intros ?; apply H; now right). cbn [rev]. now rewrite <- app_assoc.
Qed.
Lemma split2_last c x : forall cur, ~ In c x -> split2 c cur x = [rev cur ++ x].
Proof.
  induction x as [|a x IH]; intros cur H; [cbn; now rewrite app_nil_r|]. assert (a <> c) by (intros ->; apply H; now left). destruct x as [|y r]; [reflexivity|].
  rewrite split2_step. replace (a =? c) with false by lia. cbn [andb]. rewrite IH by (intros ?; apply H; now right). cbn [rev]. now rewrite <- app_assoc.
Qed.
Lemma join_split2 c (l : list (list Z)) : l <> [] -> Forall (fun x => ~ In c x) l -> split2 c [] (join [c; c] l) = l.
Proof.
  intros Hn HF. induction HF as [|x l Hx HF IH]; [congruence|]. destruct l as [|y r]; [cbn [join]; now rewrite split2_last|].
  rewrite join_cons. cbn [app]. rewrite split2_piece by assumption. cbn [rev app]. f_equal. apply IH. discriminate.
Qed.

Lemma omap_ok_map {A B} (f : A -> outcome B) (g : B -> A) (l : list B) : (forall b, In b l -> f (g b) = Ok b) -> omap f (map g l) = Ok l.
Proof. induction l as [|b l IH]; intros H; [reflexivity|]. cbn [map omap]. rewrite H by now left. cbn [obind]. rewrite IH by (intros; apply H; now right). reflexivity. Qed.
Lemma omap_inv {A B} (f : A -> outcome B) (P : A -> B -> Prop) : (forall a b, f a = Ok b -> P a b) -> forall l l', omap f l = Ok l' -> Forall2 P l l'.
Proof.
  intros H. induction l as [|a l IH]; intros l' E; cbn [omap] in E; [injection E as <-; constructor|].
  destruct (f a) as [b| |] eqn:Ea; try discriminate. cbn [obind] in E. destruct (omap f l) as [bs| |] eqn:El; try discriminate. cbn [obind] in E. injection E as <-. constructor; auto.
Qed.
Section PredicateText.
  Variable alnum : Z -> bool.
  Hypothesis no_bar : alnum 124 = false.
  Hypothesis no_amp : alnum 38 = false.
  Hypothesis no_bang : alnum 33 = false.
  Lemma atom_name_ok n : n <> [] -> forallb (fun c => alnum c || (c =? 95)) n = true <-> Forall (name_char alnum) n.
  Proof.
    intros _. rewrite forallb_forall, Forall_forall. unfold name_char. split; intros H c Hc; specialize (H c Hc).
    - apply orb_prop in H. destruct H as [H|H]; [now left|right; now apply Z.eqb_eq].
    - destruct H as [H|H]; [now rewrite H|rewrite H; apply orb_true_r].
  Qed.
  Lemma parse_atom_text a : literal_ok alnum a -> parse_atom alnum (literal_text a) = Ok a.
  Proof using no_bar no_amp no_bang.
    intros (HF & x & r & E & Hx). destruct a as [b n]. cbn [fst snd] in *. subst n. unfold literal_text. cbn [fst snd]. destruct b; cbn [app]; unfold parse_atom.
    - specialize (Hx eq_refl). replace (128 <=? x) with false by lia. assert (x <> 33). { intros ->. inversion HF as [|? ? [H|H] ?]; subst; [congruence|discriminate]. }
      replace (x =? 33) with false by lia. cbn [negb]. rewrite (proj2 (atom_name_ok (x :: r) ltac:(discriminate)) HF). reflexivity.
    - cbn [Z.leb Z.compare Pos.compare Pos.compare_cont Z.eqb Pos.eqb negb]. rewrite (proj2 (atom_name_ok (x :: r) ltac:(discriminate)) HF). reflexivity.
  Qed.
  Lemma parse_atom_inv s a : parse_atom alnum s = Ok a -> s = literal_text a /\ literal_ok alnum a.
  Proof using no_bar no_amp no_bang.
    unfold parse_atom. destruct s as [|x r]; [discriminate|]. destruct (128 <=? x) eqn:E1; [discriminate|]. destruct (x =? 33) eqn:E2.
    - destruct r as [|y r]; [discriminate|]. destruct (forallb _ _) eqn:E3; [|discriminate]. intros H. injection H as <-. apply Z.eqb_eq in E2. subst. split; [reflexivity|].
      split; [apply atom_name_ok; [discriminate|exact E3]|]. exists y, r. split; [reflexivity|]. cbn. discriminate.
    - destruct (forallb _ _) eqn:E3; [|discriminate]. intros H. injection H as <-. split; [reflexivity|]. split; [apply atom_name_ok; [discriminate|exact E3]|]. exists x, r. split; [reflexivity|]. lia.
  Qed.
  Lemma literal_no c a : c = 124 \/ c = 38 -> literal_ok alnum a -> ~ In c (literal_text a).
  Proof using no_bar no_amp no_bang.
    intros Hc (HF & _) Hi. unfold literal_text in Hi. apply in_app_or in Hi. destruct Hi as [Hi|Hi]; [destruct (fst a); [destruct Hi|destruct Hi as [Hi|[]]; lia]|].
    rewrite Forall_forall in HF. specialize (HF c Hi). unfold name_char in HF. destruct Hc as [-> | ->]; destruct HF as [HF|HF]; congruence || discriminate.
  Qed.
  Lemma join_no c sep l : ~ In c sep -> Forall (fun x : list Z => ~ In c x) l -> ~ In c (join sep l).
  Proof.
    intros Hs. induction 1 as [|x l Hx HF IH]; [intros []|]. destruct l as [|y r]; [exact Hx|]. rewrite join_cons. intros Hi. apply in_app_or in Hi. destruct Hi as [Hi|Hi]; [auto|]. apply in_app_or in Hi. tauto.
  Qed.
  Lemma parse_predicate_text p : predicate_ok alnum p -> parse_predicate alnum (predicate_text p) = Ok p.
  Proof using no_bar no_amp no_bang.
    intros (Hn & HF). unfold parse_predicate, predicate_text. rewrite join_split2.
    - apply omap_ok_map. intros c Hc. rewrite Forall_forall in HF. destruct (HF c Hc) as (Hcn & HFc). rewrite Forall_forall in HFc. rewrite join_split2.
      + apply omap_ok_map. intros a Ha. apply parse_atom_text. auto.
      + destruct c; [congruence|discriminate].
      + apply Forall_forall. intros x Hx. apply in_map_iff in Hx. destruct Hx as (a & <- & Ha). apply literal_no; auto.
    - destruct p; [congruence|discriminate].
    - apply Forall_forall. intros x Hx. apply in_map_iff in Hx. destruct Hx as (c & <- & Hc). rewrite Forall_forall in HF. destruct (HF c Hc) as (Hcn & HFc). rewrite Forall_forall in HFc.
      apply join_no; [cbn; lia|]. apply Forall_forall. intros y Hy. apply in_map_iff in Hy. destruct Hy as (a & <- & Ha). apply literal_no; auto.
  Qed.
  Lemma forall2_map {A B} (P : A -> B -> Prop) (g : B -> A) (Q : B -> Prop) : (forall a b, P a b -> a = g b /\ Q b) -> forall l l', Forall2 P l l' -> l = map g l' /\ Forall Q l'.
  Proof. intros H. induction 1 as [|a b l l' Hab _ (IH1 & IH2)]; [split; constructor|]. destruct (H a b Hab) as (-> & Hq). subst. split; [reflexivity|now constructor]. Qed.
  Lemma parse_conj_inv s c : omap (parse_atom alnum) (split2 38 [] s) = Ok c -> s = join [38; 38] (map literal_text c) /\ c <> [] /\ Forall (literal_ok alnum) c.
  Proof using no_bar no_amp no_bang.
    intros E. apply (omap_inv _ (fun s a => s = literal_text a /\ literal_ok alnum a) parse_atom_inv) in E.
    destruct (forall2_map _ literal_text (literal_ok alnum) (fun a b H => H) _ _ E) as (E1 & E2). pose proof (split2_join 38 [] s) as J. rewrite E1 in J. cbn [rev app] in J. split; [now rewrite J|].
    split; [|exact E2]. intros ->. apply (split2_ne 38 [] s). exact E1.
  Qed.
  Lemma parse_predicate_inv s p : parse_predicate alnum s = Ok p -> s = predicate_text p /\ predicate_ok alnum p.
  Proof using no_bar no_amp no_bang.
    intros E. unfold parse_predicate in E. apply (omap_inv _ (fun s c => s = join [38; 38] (map literal_text c) /\ c <> [] /\ Forall (literal_ok alnum) c) parse_conj_inv) in E.
    destruct (forall2_map _ (fun c => join [38; 38] (map literal_text c)) (fun c => c <> [] /\ Forall (literal_ok alnum) c) (fun a b H => H) _ _ E) as (E1 & E2). pose proof (split2_join 124 [] s) as J. rewrite E1 in J. cbn [rev app] in J.
    split; [now rewrite <- J|]. split; [|exact E2]. intros ->. apply (split2_ne 124 [] s). exact E1.
  Qed.
End PredicateText.
