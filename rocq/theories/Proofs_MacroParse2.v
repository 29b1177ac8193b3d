(** Proofs about the front end of the script macro: the attribute, the parameters, doc comments, lines. *)
From Coq Require Import Ascii.
From Verif Require Import Base BaseLemmas Model_Opcode Model_Script Model_Behavior Model_Macro Spec_Macro Proofs_Macro Model_MacroParse Spec_MacroParse Proofs_MacroParse.
Local Open Scope string_scope.
Local Open Scope list_scope.
Local Open Scope Z_scope.

(** ** UTF-8 *)
Lemma cons_eq (a b : Z) l m : a :: l = b :: m -> a = b /\ l = m.
Proof. intros E. split; [exact (f_equal (hd 0) E)|exact (f_equal (@tl Z) E)]. Qed.
Lemma utf8_char_inj c d r s : 0 <= c < 1114112 -> 0 <= d < 1114112 -> utf8_char c ++ r = utf8_char d ++ s -> c = d /\ r = s.
Proof.
  intros Hc Hd. unfold utf8_char.
  destruct (c <? 128) eqn:C1; [|destruct (c <? 2048) eqn:C2; [|destruct (c <? 65536) eqn:C3]]; (destruct (d <? 128) eqn:D1; [|destruct (d <? 2048) eqn:D2; [|destruct (d <? 65536) eqn:D3]]);
    cbn [app]; intros E; repeat (apply cons_eq in E as (? & E)); first [exfalso; Z.to_euclidean_division_equations; lia|split; [Z.to_euclidean_division_equations; lia|assumption]].
Qed.
Lemma utf8_bytes_inj s : forall t, code_points s -> code_points t -> concat (map utf8_char s) = concat (map utf8_char t) -> s = t.
Proof.
  induction s as [|c s IH]; intros [|d t] Hs Ht E; [reflexivity| | |].
  - exfalso. cbn [map concat] in E. unfold utf8_char in E. destruct (d <? 128); [discriminate|]. destruct (d <? 2048); [discriminate|]. destruct (d <? 65536); discriminate.
  - exfalso. cbn [map concat] in E. unfold utf8_char in E. destruct (c <? 128); [discriminate|]. destruct (c <? 2048); [discriminate|]. destruct (c <? 65536); discriminate.
  - cbn [map concat] in E. inversion Hs as [|? ? Hc Hs']; subst. inversion Ht as [|? ? Hd Ht']; subst. destruct (utf8_char_inj _ _ _ _ Hc Hd E) as (-> & E'). f_equal. now apply IH.
Qed.
Lemma utf8_char_bytes c : 0 <= c < 1114112 -> Forall (fun b => 0 <= b < 256) (utf8_char c).
Proof.
  intros Hc. unfold utf8_char. destruct (c <? 128) eqn:C1; [|destruct (c <? 2048) eqn:C2; [|destruct (c <? 65536) eqn:C3]]; repeat (apply Forall_cons; [Z.to_euclidean_division_equations; lia|]); apply Forall_nil.
Qed.
Lemma utf8_bytes_ok s : code_points s -> Forall (fun b => 0 <= b < 256) (concat (map utf8_char s)).
Proof. induction 1 as [|c s Hc _ IH]; [constructor|]. cbn [map concat]. apply Forall_app. split; [now apply utf8_char_bytes|exact IH]. Qed.
Lemma ascii_inj l : forall m, Forall (fun b => 0 <= b < 256) l -> Forall (fun b => 0 <= b < 256) m -> map (fun b => ascii_of_N (Z.to_N b)) l = map (fun b => ascii_of_N (Z.to_N b)) m -> l = m.
Proof.
  induction l as [|a l IH]; intros [|b m] Hl Hm E; try discriminate; [reflexivity|]. cbn [map] in E. injection E as E1 E2. inversion Hl; subst. inversion Hm; subst. f_equal; [|now apply IH].
  apply (f_equal N_of_ascii) in E1. rewrite !N_ascii_embedding in E1 by lia. lia.
Qed.
Lemma utf8_inj s t : code_points s -> code_points t -> utf8 s = utf8 t -> s = t.
Proof.
  intros Hs Ht E. unfold utf8 in E. apply (f_equal list_ascii_of_string) in E. rewrite !list_ascii_of_string_of_list_ascii in E. apply ascii_inj in E; [|now apply utf8_bytes_ok..]. now apply utf8_bytes_inj.
Qed.

Section P.
Context (R : rust).
(** ** The attribute *)
Definition apply_arg (a : macro_attrs) (m : arg_means) : macro_attrs :=
  match m with
  | VariantArg n p => MacroAttrs (ma_struct a) (ma_crate a) (ma_variants a ++ [(n, p)]) (ma_debug a)
  | CrateArg c => MacroAttrs (ma_struct a) (Some c) (ma_variants a) (ma_debug a)
  | DebugArg b => MacroAttrs (ma_struct a) (ma_crate a) (ma_variants a) (Some b)
  end.
Lemma predicate_map p : map (map (fun '(b, n) => Atom (utf8 n) b)) p = predicate_of p.
Proof. unfold predicate_of. apply map_ext. intros c. apply map_ext. intros [b n]. reflexivity. Qed.
Lemma attr_iff (HR : rust_ok R) a n a' : parse_attr R a n = Ok a' <-> exists m, arg R n m /\ a' = apply_arg a m.
Proof.
  destruct HR as (H1 & H2 & H3). split.
  - destruct n as [[p|p l|[x [|]] l]|]; cbn [parse_attr]; try discriminate. cbn [single_path]. destruct (String.eqb_spec x "crate") as [->|Hc].
    + destruct l as [s| |]; cbn [parse_string_lit]; try discriminate. destruct (ident_ok R s) eqn:Es; [|discriminate]. intros E. injection E as <-. exists (CrateArg (utf8 s)). split; [now constructor|reflexivity].
    + destruct (String.eqb_spec x "debug") as [->|Hd].
      * destruct l as [|b|]; cbn [parse_bool_lit]; try discriminate. intros E. injection E as <-. exists (DebugArg b). split; [constructor|reflexivity].
      * unfold parse_predicate_lit. destruct l as [s| |]; cbn [parse_string_lit]; try discriminate. destruct (parse_predicate (alphanumeric R) s) as [p| |] eqn:Ep; try discriminate. cbn [obind]. intros E. injection E as <-.
        apply parse_predicate_inv in Ep as (-> & Hp); [|assumption..]. exists (VariantArg x (predicate_of p)). split; [now constructor|]. cbn [apply_arg]. now rewrite predicate_map.
  - intros (m & [x p Hc Hd Hp|s Hs|b] & ->); cbn [parse_attr single_path].
    + destruct (String.eqb_spec x "crate"); [contradiction|]. destruct (String.eqb_spec x "debug"); [contradiction|]. unfold parse_predicate_lit. cbn [parse_string_lit]. rewrite parse_predicate_text by assumption. cbn [obind apply_arg]. now rewrite predicate_map.
    + cbn [String.eqb]. change (String.eqb "crate" "crate") with true. cbv iota. cbn [parse_string_lit]. rewrite Hs. reflexivity.
    + reflexivity.
Qed.
Lemma attr_loop_iff (HR : rust_ok R) l : forall a a', parse_attr_loop R a l = Ok a' <-> exists args, Forall2 (arg R) l args /\ a' = fold_left apply_arg args a.
Proof.
  induction l as [|n l IH]; intros a a'; cbn [parse_attr_loop].
  - split; [intros E; injection E as <-; exists []; split; [constructor|reflexivity]|]. intros (args & H & ->). inversion H. reflexivity.
  - split.
    + destruct (parse_attr R a n) as [a1| |] eqn:E1; try discriminate. cbn [obind]. intros E. apply (attr_iff HR) in E1 as (m & Hm & ->). apply IH in E as (args & Ha & ->). exists (m :: args). split; [now constructor|reflexivity].
    + intros (args & H & ->). inversion H as [|? m ? args' Hm Ha]; subst. rewrite (proj2 (attr_iff HR a n (apply_arg a m))) by eauto. cbn [obind fold_left]. apply IH. eauto.
Qed.
Lemma fold_arg args : forall a, fold_left apply_arg args a =
  MacroAttrs (ma_struct a) (fold_left (fun r x => match x with Some _ => x | None => r end) (map (fun x => match x with CrateArg c => Some c | _ => None end) args) (ma_crate a))
    (ma_variants a ++ variant_args args) (fold_left (fun r x => match x with Some _ => x | None => r end) (map (fun x => match x with DebugArg b => Some b | _ => None end) args) (ma_debug a)).
Proof.
  induction args as [|m args IH]; intros a; cbn [fold_left map]; [unfold variant_args; cbn; rewrite app_nil_r; now destruct a|]. rewrite IH. destruct m; cbn [apply_arg ma_struct ma_crate ma_variants ma_debug]; unfold variant_args; cbn [map concat]; rewrite <- ?app_assoc; reflexivity.
Qed.
Lemma attrs_iff (HR : rust_ok R) l a : parse_attrs R l = Ok a <-> macro_args R l a.
Proof.
  unfold macro_args, crate_arg, debug_arg, last_some. split.
  - destruct l as [|[[[x [|]]| |]|] rest]; cbn [parse_attrs single_path]; try discriminate. intros E. apply (attr_loop_iff HR) in E as (args & Ha & E). rewrite fold_arg in E. cbn [ma_struct ma_crate ma_variants ma_debug app] in E. subst a. cbn [ma_struct ma_crate ma_variants ma_debug]. exists rest, args. auto.
  - intros (rest & args & -> & Ha & Hv & Hc & Hd). cbn [parse_attrs single_path]. apply (attr_loop_iff HR). exists args. split; [exact Ha|]. rewrite fold_arg. cbn [ma_struct ma_crate ma_variants ma_debug app]. destruct a as [s c v d]. cbn [ma_struct ma_crate ma_variants ma_debug] in *. congruence.
Qed.

(** ** Parameters *)
Lemma variant_names nested vs : omap variant_name nested = Ok vs <-> nested = map (fun v => NMeta (MPath (One v))) vs.
Proof.
  rewrite omap_ok. split.
  - induction 1 as [|n v nested vs H _ IH]; [reflexivity|]. cbn [map]. f_equal; [|exact IH]. destruct n as [[[x [|]]| |]|]; cbn in H; try discriminate. injection H as <-. reflexivity.
  - intros ->. induction vs; constructor; [reflexivity|assumption].
Qed.
Lemma path_variant p : match single_path p with Some x => String.eqb x "variant" | None => false end = true <-> p = One "variant".
Proof.
  destruct p as [x [|]]; cbn [single_path]; [|split; discriminate]. destruct (String.eqb_spec x "variant") as [->|H]; split; try discriminate; auto. intros E. injection E as ->. contradiction.
Qed.
Lemma variant_attr_iff a vs : at_path a = One "variant" -> (parse_variant_attr (at_meta a) = Ok vs <-> variant_attr a vs).
Proof.
  destruct a as [p m]. cbn [at_path at_meta]. intros ->. split.
  - destruct m as [[[x [|]]|q nested|q l]|]; cbn [parse_variant_attr single_path]; try discriminate.
    + intros E. injection E as <-. constructor.
    + intros E. apply variant_names in E. subst nested. constructor.
  - inversion 1; subst; cbn [parse_variant_attr single_path]; [|reflexivity]. now apply variant_names.
Qed.
Lemma input_attrs_iff l : forall v0 k0 v' k', parse_input_attrs v0 k0 l = Ok (v', k') <-> exists v k, input_attrs l v k /\ v' = (match v with None => v0 | _ => v end) /\ k' = k0 ++ k.
Proof.
  induction l as [|a l IH]; intros v0 k0 v' k'; cbn [parse_input_attrs].
  - split; [intros E; injection E as <- <-; exists None, []; rewrite app_nil_r; split; [constructor|auto]|]. intros (v & k & H & -> & ->). inversion H; subst. now rewrite app_nil_r.
  - destruct (match single_path (at_path a) with Some x => String.eqb x "variant" | None => false end) eqn:Ep.
    + apply path_variant in Ep. split.
      * destruct (parse_variant_attr (at_meta a)) as [vs| |] eqn:Ev; try discriminate. cbn [obind]. intros E. apply IH in E as (v & k & H & -> & ->). apply variant_attr_iff in Ev; [|exact Ep]. exists (match v with None => Some vs | _ => v end), k. split; [now constructor|]. split; [now destruct v|reflexivity].
      * intros (v & k & H & -> & ->). inversion H as [|? vs ? v1 ? Hv H1|? ? ? ? Ho H1]; subst; [|contradiction]. apply variant_attr_iff in Hv; [|exact Ep]. rewrite Hv. cbn [obind]. apply IH. exists v1, k. split; [exact H1|]. split; [now destruct v1|reflexivity].
    + assert (Ho : other_attr a) by (intros E; apply path_variant in E; congruence). split.
      * intros E. apply IH in E as (v & k & H & -> & ->). exists v, (a :: k). split; [now constructor|]. rewrite <- app_assoc. auto.
      * intros (v & k & H & -> & ->). inversion H as [|? vs ? v1 ? Hv H1|? ? ? k1 Ho' H1]; subst; [exfalso; apply Ho; inversion Hv; reflexivity|]. apply IH. exists v, k1. rewrite <- app_assoc. auto.
Qed.
Lemma script_input_iff a i : match a with Typed attrs p ty => parse_script_input attrs p ty | Receiver => Err (EMsg 45) end = Ok i <-> script_input_of a i.
Proof.
  split.
  - destruct a as [|attrs p ty]; [discriminate|]. unfold parse_script_input. destruct (parse_input_attrs None [] attrs) as [[v k]| |] eqn:E; try discriminate. cbn [obind]. destruct p as [n b| |]; try discriminate. intros Ei. injection Ei as <-. constructor. apply input_attrs_iff in E as (v1 & k1 & H & -> & ->). cbn [app]. now destruct v1.
  - intros [attrs n b ty v k H]. unfold parse_script_input. rewrite (proj2 (input_attrs_iff attrs None [] v k)); [reflexivity|]. exists v, k. split; [exact H|]. split; [now destruct v|reflexivity].
Qed.
Lemma parameters_iff l ins ty : parse_script_inputs l = Ok (ins, ty) <-> parameters l ty ins.
Proof.
  unfold parameters. split.
  - destruct l as [|[|attrs p t] rest]; cbn [parse_script_inputs]; try discriminate. destruct (omap _ rest) as [is| |] eqn:E; try discriminate. cbn [obind]. intros H. injection H as <- <-. apply omap_ok in E. exists attrs, p, rest. split; [reflexivity|]. eapply F2_impl; [|exact E]. intros a b. apply script_input_iff.
  - intros (attrs & p & rest & -> & H). cbn [parse_script_inputs]. rewrite (proj2 (omap_ok _ rest ins)); [reflexivity|]. eapply F2_impl; [|exact H]. intros a b. apply script_input_iff.
Qed.

(** ** Lines *)
Definition simple (s : stmt) : Prop := match s with SForLoop _ | SRustIf _ _ => False | _ => True end.
Lemma body_app a b : body (a ++ b) = body a ++ body b.
Proof. unfold body. now rewrite map_app, concat_app. Qed.
Lemma stand_lines : (forall s l, stands R s l -> Forall simple (body l) -> line R s (body l)) /\ (forall e l, stands_expr R e l -> Forall simple (body l) -> line_expr R e (body l)) /\
  (forall b t, block R b t -> Forall simple (body t) -> lines R b (body t)) /\ (forall l r, all_stand R l r -> Forall simple (body r) -> lines R l (body r)).
Proof.
  apply stands_mut.
  - intros p ns e o Hb Ho _. eapply LnLetOpcode; eassumption.
  - intros p n e Hb Hs _. now apply LnLetPush.
  - intros e l _ IH H. constructor. now apply IH.
  - intros e l _ IH H. constructor. now apply IH.
  - intros e o Ho _. now apply LnOpcode.
  - intros e H _. now apply LnPush.
  - intros b t _ IH H. apply LnBlock. now apply IH.
  - intros h b t _ _ H. inversion H as [|? ? Hf]. destruct Hf.
  - intros c b t _ _ H. inversion H as [|? ? Hf]. destruct Hf.
  - intros c b t e es _ _ _ _ H. inversion H as [|? ? Hf]. destruct Hf.
  - intros l flat t _ IH Hg H. rewrite (groups_body _ _ _ Hg) in *. now apply IH.
  - constructor.
  - intros s r a b _ IHs _ IHr H. rewrite body_app in *. apply Forall_app in H as (Ha & Hb). constructor; auto.
Qed.
Scheme line_m := Minimality for line Sort Prop
  with line_expr_m := Minimality for line_expr Sort Prop
  with lines_m := Minimality for lines Sort Prop.
Combined Scheme line_mut from line_m, line_expr_m, lines_m.
Lemma opcode_line_fun e outs o o' : opcode_line R e outs o -> opcode_line R e outs o' -> o = o'.
Proof. intros H H'. apply opcode_line_iff in H, H'. congruence. Qed.
Lemma opcode_line_shaped e outs o : opcode_line R e outs o -> opcode_shaped e.
Proof. intros (args & H & _). eapply applies_shaped; exact H. Qed.
Lemma line_fun : (forall s l, line R s l -> forall l', line R s l' -> l = l') /\ (forall e l, line_expr R e l -> forall l', line_expr R e l' -> l = l') /\ (forall b l, lines R b l -> forall l', lines R b l' -> l = l').
Proof.
  apply line_mut.
  - intros p ns e o Hb Ho l' H. inversion H as [? ns' ? o' Hb' Ho'|? n' ? Hb' Hs'| |]; subst.
    + apply binds_iff in Hb, Hb'. assert (ns' = ns) by congruence. subst ns'. f_equal. f_equal. eapply opcode_line_fun; eassumption.
    + exfalso. apply Hs'. eapply opcode_line_shaped; exact Ho.
  - intros p n e Hb Hs l' H. inversion H as [? ns' ? o' Hb' Ho'|? n' ? Hb' Hs'| |]; subst.
    + exfalso. apply Hs. eapply opcode_line_shaped; exact Ho'.
    + apply binds_iff in Hb, Hb'. assert (n' = n) by congruence. now subst.
  - intros e l _ IH l' H. inversion H; subst. auto.
  - intros e l _ IH l' H. inversion H; subst. auto.
  - intros e o Ho l' H. inversion H as [? o' Ho'|? Hp|]; subst.
    + f_equal. f_equal. eapply opcode_line_fun; eassumption.
    + apply opcode_line_shaped in Ho. destruct e; contradiction.
    + apply opcode_line_shaped in Ho. destruct Ho.
  - intros e Hp l' H. inversion H as [? o' Ho'|? Hp'|]; subst; [apply opcode_line_shaped in Ho'; destruct e; contradiction|reflexivity|destruct Hp].
  - intros b l _ IH l' H. inversion H as [? o' Ho'|? Hp'|]; subst; [apply opcode_line_shaped in Ho'; destruct Ho'|destruct Hp'|auto].
  - intros l' H. inversion H. reflexivity.
  - intros s r a b _ IHs _ IHr l' H. inversion H; subst. f_equal; auto.
Qed.

(** ** No panics *)
Lemma expr_no_panic : (forall e, parse_stmt_expr R e <> Panic).
Proof.
  assert (HO : forall e outs, parse_opcode R e outs <> Panic).
  { intros e outs. destruct e as [a f args|[x [|]]| | | | ]; cbn; try discriminate. destruct a; [discriminate|]. destruct f as [|[x [|]]| | | | ]; discriminate. }
  assert (HB : forall b, Forall (fun s => parse_stmt R s <> Panic) b -> parse_stmts R b <> Panic).
  { intros b HF. unfold parse_stmts. assert (HC : collect R b <> Panic). { induction HF as [|s b Hs _ IH]; [discriminate|]. rewrite collect_cons. destruct (parse_stmt R s); cbn [obind]; [|discriminate|congruence]. destruct (collect R b); cbn [obind]; [discriminate|discriminate|congruence]. }
    destruct (collect R b) as [l| |]; cbn [obind]; [|discriminate|congruence]. unfold parse_op_if. pose proof (parse_depth l (IfParser [] [] true)) as H. cbn [ip_stack length] in H. destruct (depth_after 0 l); [destruct H as (p & E & _)|destruct H as (x & E)]; rewrite E; cbn [obind]; [destruct (ip_stack p)|]; discriminate. }
  apply (expr_ind' (fun e => parse_stmt_expr R e <> Panic) (fun s => parse_stmt R s <> Panic)).
  - intros a f args. specialize (HO (ECall a f args) None). cbn [parse_stmt_expr]. destruct (parse_opcode R (ECall a f args) None); cbn [obind]; congruence.
  - intros p. specialize (HO (EPath p) None). cbn [parse_stmt_expr]. destruct (parse_opcode R (EPath p) None); cbn [obind]; congruence.
  - intros h b HF. rewrite for_eq. apply HB in HF. destruct (parse_stmts R b); cbn [obind]; congruence.
  - intros c b el HF He. rewrite if_eq. apply HB in HF. destruct (parse_stmts R b); cbn [obind]; [|congruence|congruence]. destruct el as [e|]; [|discriminate]. specialize (He e eq_refl). destruct (parse_stmt_expr R e); cbn [obind]; congruence.
  - intros b HF. rewrite block_eq. now apply HB.
  - intros t. discriminate.
  - intros p i. cbn [parse_stmt]. unfold parse_let. destruct i as [e|]; [|discriminate]. assert (HL : let_outputs p <> Panic).
    { destruct p as [n [|]|[|] ps|]; try discriminate. cbn [let_outputs]. induction ps as [|p ps IH]; [discriminate|]. cbn [omap]. destruct p; cbn [pat_name obind]; try discriminate. destruct (omap pat_name ps); cbn [obind]; congruence. }
    destruct (let_outputs p) as [ns| |]; cbn [obind]; [|discriminate|congruence]. destruct (is_call_or_path e); [specialize (HO e (Some ns)); destruct (parse_opcode R e (Some ns)); cbn [obind]; congruence|]. destruct ns as [|n [|]]; discriminate.
  - intros e H. exact H.
  - intros e H. exact H.
  - discriminate.
Qed.
Lemma stmts_no_panic b : parse_stmts R b <> Panic.
Proof. rewrite <- block_eq. apply expr_no_panic. Qed.
Lemma inputs_no_panic l : parse_script_inputs l <> Panic.
Proof.
  assert (HV : forall n, omap variant_name n <> Panic). { induction n as [|x n IH]; [discriminate|]. cbn [omap]. destruct x as [[[y [|]]| |]|]; cbn [variant_name single_path obind]; try discriminate. destruct (omap variant_name n); cbn [obind]; congruence. }
  assert (HA : forall l v k, parse_input_attrs v k l <> Panic).
  { intros l0; induction l0 as [|a l0 IH]; intros v k; cbn [parse_input_attrs]; [discriminate|]. destruct (match single_path (at_path a) with Some x => String.eqb x "variant" | None => false end); [|apply IH].
    assert (parse_variant_attr (at_meta a) <> Panic) by (destruct (at_meta a) as [[[x [|]]|q n|]|]; cbn; try discriminate; apply HV). destruct (parse_variant_attr (at_meta a)); cbn [obind]; [apply IH|discriminate|congruence]. }
  assert (HI : forall r, omap (fun a => match a with Typed attrs p ty => parse_script_input attrs p ty | Receiver => Err (EMsg 45) end) r <> Panic).
  { induction r as [|a r IH]; [discriminate|]. cbn [omap]. destruct a as [|attrs p ty]; [discriminate|]. unfold parse_script_input at 1. specialize (HA attrs None []). destruct (parse_input_attrs None [] attrs) as [[v k]| |]; cbn [obind]; [|discriminate|congruence]. destruct p; cbn [obind]; try discriminate. destruct (omap _ r); cbn [obind]; congruence. }
  destruct l as [|[|attrs p ty] r]; cbn [parse_script_inputs]; try discriminate. specialize (HI r). destruct (omap _ r); cbn [obind]; congruence.
Qed.

(** ** Doc comments *)
Lemma lookup_insert {A} k k' (a : A) l : lookup k (insert k' a l) = if String.eqb k k' then Some a else lookup k l.
Proof.
  induction l as [|[x b] l IH]; cbn [insert lookup]; [destruct (String.eqb k k'); reflexivity|]. destruct (String.eqb_spec k' x) as [->|Hx]; cbn [lookup].
  - destruct (String.eqb k x); reflexivity.
  - destruct (String.eqb_spec k x) as [->|]; [|exact IH]. destruct (String.eqb_spec x k'); [congruence|reflexivity].
Qed.
Lemma drop_while_spec f s : exists w, s = w ++ drop_while f s /\ Forall (fun c => f c = true) w /\ forall c r, drop_while f s = c :: r -> f c = false.
Proof.
  induction s as [|c s (w & E & Hw & Hc)]; cbn [drop_while]; [exists []; repeat split; [constructor|discriminate]|].
  destruct (f c) eqn:Ef; [exists (c :: w); cbn [app]; rewrite <- E; repeat split; [now constructor|exact Hc]|]. exists []. repeat split; [constructor|]. intros x r Hx. injection Hx as <- <-. exact Ef.
Qed.
Lemma drop_while_all f w t : Forall (fun c => f c = true) w -> (forall c r, t = c :: r -> f c = false) -> drop_while f (w ++ t) = t.
Proof.
  intros H Ht. induction H as [|c w Hc _ IH]; cbn [app drop_while]; [|now rewrite Hc]. destruct t as [|c r]; cbn [drop_while]; [reflexivity|]. now rewrite (Ht c r eq_refl).
Qed.
Lemma trim_iff doc core : trim R doc = core <-> trimmed R doc core.
Proof.
  unfold trim, trimmed, blank. split.
  - intros <-. destruct (drop_while_spec (whitespace R) doc) as (w & E & Hw & Hc). set (d := drop_while _ doc) in *.
    destruct (drop_while_spec (whitespace R) (rev d)) as (w2 & E2 & Hw2 & Hc2). set (e := drop_while _ (rev d)) in *.
    assert (Ed : d = rev e ++ rev w2) by (rewrite <- rev_app_distr, <- E2; symmetry; apply rev_involutive). split; [|split].
    + exists w, (rev w2). rewrite <- Ed. split; [exact E|]. split; [exact Hw|]. now apply Forall_rev.
    + intros c r Hr. rewrite Ed, Hr in Hc. rewrite (Hc c (r ++ rev w2) eq_refl). discriminate.
    + intros c r Hr. assert (e = c :: rev r) as X by (rewrite <- (rev_involutive e), Hr, rev_app_distr; reflexivity). rewrite (Hc2 _ _ X). discriminate.
  - intros ((b & a & -> & Hb & Ha) & Hf & Hl). assert (forall c, whitespace R c <> true -> whitespace R c = false) as NT by (intros c; destruct (whitespace R c); congruence). destruct core as [|x core].
    + cbn [app]. rewrite <- (app_nil_r (b ++ a)), drop_while_all; [reflexivity|apply Forall_app; auto|discriminate].
    + rewrite drop_while_all; [|exact Hb|intros c r H; injection H as <- <-; apply NT; exact (Hf x core eq_refl)]. rewrite rev_app_distr, drop_while_all; [apply rev_involutive|now apply Forall_rev|].
      intros c r H. apply NT. apply (Hl c (rev r)). rewrite <- (rev_involutive (x :: core)), H. reflexivity.
Qed.
Lemma header_iff name prefix doc : header name prefix (trim R doc) = true <-> is_header R prefix name doc.
Proof.
  unfold is_header. setoid_rewrite <- trim_iff. unfold header, starts_with. destruct (list_eq_dec Z.eq_dec (firstn (length prefix) (trim R doc)) prefix) as [E|E].
  - rewrite String.eqb_eq. split.
    + intros Hn. exists (skipn (length prefix) (trim R doc)). split; [|now symmetry]. rewrite <- E at 1. symmetry. apply firstn_skipn.
    + intros (r & Hr & <-). rewrite Hr, skipn_app_exact by reflexivity. reflexivity.
  - split; [discriminate|]. intros (r & Hr & _). exfalso. apply E. rewrite Hr. now apply firstn_app_exact.
Qed.
Definition doc_inv (d : doc_state) : Prop := forall v, ds_current d = Some v -> lookup v (sd_variants (ds_docs d)) <> None.
Lemma doc_step name vs d doc : doc_inv d -> exists d', parse_doc R name vs d doc = Ok d' /\ doc_inv d'.
Proof.
  intros Hi. unfold parse_doc. destruct (header name [35; 32] (trim R doc)); [eexists; split; [reflexivity|exact Hi]|].
  destruct (if ds_found d then find (fun v => header v [35; 35; 32] (trim R doc)) vs else None) as [v|].
  - eexists. split; [reflexivity|]. intros w E. cbn in E. injection E as <-. cbn. rewrite lookup_insert, String.eqb_refl. discriminate.
  - destruct (ds_current d) as [v|] eqn:Ec.
    + destruct (lookup v (sd_variants (ds_docs d))) as [docs|] eqn:El; [|exfalso; now apply (Hi v Ec)]. eexists. split; [reflexivity|]. intros w E. cbn in E. injection E as <-. cbn. rewrite lookup_insert, String.eqb_refl. discriminate.
    + destruct (ds_found d); eexists; (split; [reflexivity|]); [|exact Hi]. intros w E. discriminate E.
Qed.
Fixpoint docs_run (name : string) (vs : list string) (d : doc_state) (l : list (list Z)) : outcome doc_state :=
  match l with [] => Ok d | x :: r => do d' <- parse_doc R name vs d x; docs_run name vs d' r end.
Lemma docs_lines name vs l : forall d, parse_docs_loop R name vs d l = docs_run name vs d (doc_lines l).
Proof.
  induction l as [|a l IH]; intros d; [reflexivity|]. cbn [parse_docs_loop]. unfold doc_lines. cbn [map concat]. unfold parse_doc_attribute. destruct (at_meta a) as [[p|p n|[x [|y r]] lt]|]; try apply IH. cbn [single_path].
  destruct lt as [s| |]; cbn [parse_string_lit app]; destruct (String.eqb x "doc"); try apply IH. cbn [app docs_run]. destruct (parse_doc R name vs d s); cbn [obind]; [apply IH|reflexivity|reflexivity].
Qed.
Lemma docs_total name vs l : forall d, doc_inv d -> exists d', docs_run name vs d l = Ok d' /\ doc_inv d'.
Proof.
  induction l as [|x l IH]; intros d Hd; [eexists; split; [reflexivity|exact Hd]|]. cbn [docs_run]. destruct (doc_step name vs d x Hd) as (d' & E & Hd'). rewrite E. cbn [obind]. now apply IH.
Qed.
Lemma docs_ok attrs name vs : exists d, parse_docs R attrs name vs = Ok d.
Proof.
  unfold parse_docs. rewrite docs_lines. destruct (docs_total name vs (doc_lines attrs) (DocState false None (ScriptDocs [] []))) as (d & E & _); [intros v H; discriminate H|]. rewrite E. cbn [obind]. eauto.
Qed.
Lemma run_app name vs a b : forall d, docs_run name vs d (a ++ b) = do d' <- docs_run name vs d a; docs_run name vs d' b.
Proof. induction a as [|x a IH]; intros d; [reflexivity|]. cbn [app docs_run]. destruct (parse_doc R name vs d x); cbn [obind]; auto. Qed.
Lemma before name vs l : Forall (fun x => ~ struct_header R name x) l -> docs_run name vs (DocState false None (ScriptDocs [] [])) l = Ok (DocState false None (ScriptDocs [] [])).
Proof.
  induction 1 as [|x l Hx _ IH]; [reflexivity|]. cbn [docs_run]. unfold parse_doc. destruct (header name [35; 32] (trim R x)) eqn:E; [apply header_iff in E; contradiction|]. cbn [ds_found ds_current]. exact IH.
Qed.
Lemma no_variant name vs x : plain_doc R name vs x -> header name [35; 32] (trim R x) = false /\ find (fun v => header v [35; 35; 32] (trim R x)) vs = None.
Proof.
  intros (H1 & H2). split.
  - destruct (header name [35; 32] (trim R x)) eqn:E; [apply header_iff in E; contradiction|reflexivity].
  - destruct (find _ vs) as [v|] eqn:E; [|reflexivity]. apply find_some in E as (Hv & E). apply header_iff in E. exfalso. now apply (H2 v).
Qed.
Lemma in_struct name vs l : Forall (plain_doc R name vs) l -> forall s, docs_run name vs (DocState true None (ScriptDocs s [])) l = Ok (DocState true None (ScriptDocs (s ++ l) [])).
Proof.
  induction 1 as [|x l Hx _ IH]; intros s; [now rewrite app_nil_r|]. cbn [docs_run]. unfold parse_doc. destruct (no_variant _ _ _ Hx) as (E1 & E2). rewrite E1. cbn [ds_found ds_current ds_docs sd_struct sd_variants]. rewrite E2. cbn [obind]. rewrite IH, <- app_assoc. reflexivity.
Qed.
Lemma in_variant name vs l : Forall (plain_doc R name vs) l -> forall s m v ds, lookup v m = Some ds ->
  exists m', docs_run name vs (DocState true (Some v) (ScriptDocs s m)) l = Ok (DocState true (Some v) (ScriptDocs s m')) /\ forall w, lookup w m' = if String.eqb w v then Some (ds ++ l) else lookup w m.
Proof.
  induction 1 as [|x l Hx _ IH]; intros s m v ds Hl.
  - exists m. split; [reflexivity|]. intros w. destruct (String.eqb_spec w v) as [->|]; [now rewrite app_nil_r|reflexivity].
  - cbn [docs_run]. unfold parse_doc. destruct (no_variant _ _ _ Hx) as (E1 & E2). rewrite E1. cbn [ds_found ds_current ds_docs sd_struct sd_variants]. rewrite E2, Hl. cbn [obind].
    destruct (IH s (insert v (ds ++ [x]) m) v (ds ++ [x])) as (m' & E & Hm); [now rewrite lookup_insert, String.eqb_refl|]. exists m'. split; [exact E|]. intros w. rewrite Hm, lookup_insert. destruct (String.eqb w v); [now rewrite <- app_assoc|reflexivity].
Qed.
Lemma variant_start name vs v h s m cur : In v vs -> variant_header R v h ->
  parse_doc R name vs (DocState true cur (ScriptDocs s m)) h = Ok (DocState true (Some v) (ScriptDocs s (insert v [] m))).
Proof.
  intros Hv Hh. unfold parse_doc. assert (E1 : header name [35; 32] (trim R h) = false).
  { destruct (header name [35; 32] (trim R h)) eqn:E; [|reflexivity]. apply header_iff in E as (r & E & _). destruct Hh as (r' & E' & _). apply trim_iff in E, E'. rewrite E in E'. discriminate E'. }
  rewrite E1. cbn [ds_found ds_docs sd_struct sd_variants]. destruct (find (fun v0 => header v0 [35; 35; 32] (trim R h)) vs) as [w|] eqn:Ef.
  - apply find_some in Ef as (_ & Ef). apply header_iff in Ef. destruct Hh as (r & Er & <-). destruct Ef as (r' & Er' & <-). apply trim_iff in Er, Er'. rewrite Er in Er'. apply app_inv_head in Er'. now subst.
  - exfalso. apply (find_none _ _ Ef) in Hv. apply header_iff in Hh. congruence.
Qed.
Lemma sections name vs (secs : list (string * list Z * list (list Z))) : Forall (fun '(v, h, ds) => In v vs /\ variant_header R v h /\ Forall (plain_doc R name vs) ds) secs ->
  forall s m cur, exists cur' m', docs_run name vs (DocState true cur (ScriptDocs s m)) (concat (map (fun '(v, h, ds) => h :: ds) secs)) = Ok (DocState true cur' (ScriptDocs s m')) /\
  (forall v, ~ In v (map (fun x => fst (fst x)) secs) -> lookup v m' = lookup v m) /\ (NoDup (map (fun x => fst (fst x)) secs) -> forall v h ds, In (v, h, ds) secs -> lookup v m' = Some ds).
Proof.
  induction 1 as [|[[v h] ds] secs (Hv & Hh & Hd) _ IH]; intros s m cur.
  - exists cur, m. split; [reflexivity|]. split; [auto|]. intros _ v h ds [].
  - cbn [map concat]. cbn [app docs_run]. rewrite (variant_start _ _ _ _ _ _ _ Hv Hh). cbn [obind]. rewrite run_app. destruct (in_variant name vs ds Hd s (insert v [] m) v []) as (m1 & E1 & H1); [now rewrite lookup_insert, String.eqb_refl|]. rewrite E1. cbn [obind app] in *.
    destruct (IH s m1 (Some v)) as (cur' & m' & E & Hn & Hin). exists cur', m'. split; [exact E|]. cbn [map fst In]. split.
    + intros w Hw. rewrite Hn by tauto. rewrite H1, lookup_insert. destruct (String.eqb_spec w v) as [->|]; [tauto|reflexivity].
    + intros HD. inversion HD as [|? ? Hnin HD']; subst. intros w h' ds' [E'|Hin']; [|eapply Hin; eassumption]. injection E' as <- <- <-. rewrite Hn by assumption. now rewrite H1, String.eqb_refl.
Qed.

(** ** Panics *)
Lemma split2_chars c (P : Z -> Prop) s : forall cur, Forall P s -> Forall P cur -> Forall (Forall P) (split2 c cur s).
Proof.
  induction s as [s IH] using (well_founded_induction (well_founded_ltof _ (@length Z))). unfold ltof in IH. intros cur Hs Hc. destruct s as [|x [|y r]]; cbn [split2].
  - constructor; [now apply Forall_rev|constructor].
  - constructor; [|constructor]. apply Forall_rev. constructor; [now inversion Hs|exact Hc].
  - inversion Hs as [|? ? Hx Hs']; subst. destruct ((x =? c) && (y =? c)).
    + constructor; [now apply Forall_rev|]. apply IH; [cbn [length]; lia|now inversion Hs'|constructor].
    + apply (IH (y :: r)); [cbn [length]; lia|exact Hs'|now constructor].
Qed.
Lemma omap_no_panic {A B} (f : A -> outcome B) l : Forall (fun a => f a <> Panic) l -> omap f l <> Panic.
Proof. induction 1 as [|a l Ha _ IH]; [discriminate|]. cbn [omap]. destruct (f a); cbn [obind]; [|discriminate|congruence]. destruct (omap f l); cbn [obind]; congruence. Qed.
Lemma predicate_no_panic alnum s : Forall (fun c => c < 128) s -> parse_predicate alnum s <> Panic.
Proof.
  intros Hs. unfold parse_predicate. apply omap_no_panic. eapply Forall_impl; [|apply (split2_chars 124 (fun c => c < 128) s []); [exact Hs|constructor]]. intros conj Hc. apply omap_no_panic.
  eapply Forall_impl; [|apply (split2_chars 38 (fun c => c < 128) conj []); [exact Hc|constructor]]. intros [|x r] Ha; cbn [parse_atom]; [discriminate|]. inversion Ha as [|? ? Hx Hr]; subst. destruct (Z.leb_spec 128 x); [cbn in Hx; lia|]. destruct (if x =? 33 then r else x :: r); [discriminate|]. destruct (forallb _ _); discriminate.
Qed.
Lemma attr_panics a n : parse_attr R a n = Panic ->
  exists x s, n = NMeta (MNameValue (One x) (LStr s)) /\ (x = "crate" /\ ident_ok R s = false \/ x <> "crate" /\ x <> "debug" /\ Exists (fun c => 128 <= c) s).
Proof.
  destruct n as [[p|p l|[x [|]] l]|]; cbn [parse_attr single_path]; try discriminate. destruct (String.eqb_spec x "crate") as [->|Hc].
  - destruct l as [s| |]; cbn [parse_string_lit]; try discriminate. destruct (ident_ok R s) eqn:E; [discriminate|]. intros _. exists "crate", s. auto.
  - destruct (String.eqb_spec x "debug") as [->|Hd]; [destruct l; discriminate|]. unfold parse_predicate_lit. destruct l as [s| |]; cbn [parse_string_lit]; try discriminate. intros E. exists x, s. split; [reflexivity|]. right. split; [exact Hc|]. split; [exact Hd|].
    destruct (Forall_dec (fun c => c < 128) (fun c => Z_lt_dec c 128) s) as [Hs|Hs].
    + exfalso. pose proof (predicate_no_panic (alphanumeric R) s Hs). destruct (parse_predicate (alphanumeric R) s); cbn [obind] in E; congruence.
    + apply neg_Forall_Exists_neg in Hs; [|intros c; destruct (Z_lt_dec c 128); auto]. eapply Exists_impl; [|exact Hs]. cbn. intros c. lia.
Qed.
Lemma script_panics args f : parse_script R args f = Panic ->
  exists x s, In (NMeta (MNameValue (One x) (LStr s))) (tl args) /\ (x = "crate" /\ ident_ok R s = false \/ x <> "crate" /\ x <> "debug" /\ Exists (fun c => 128 <= c) s).
Proof.
  unfold parse_script. destruct (parse_attrs R args) as [a| |] eqn:Ea; cbn [obind]; [|discriminate|].
  - destruct (fn_returns f); [discriminate|]. destruct (docs_ok (fn_attrs f) (ma_struct a) (map fst (ma_variants a))) as (d & ->). cbn [obind]. pose proof (inputs_no_panic (fn_inputs f)) as Hi. destruct (parse_script_inputs (fn_inputs f)) as [[ins ty]| |]; cbn [obind]; [|discriminate|congruence]. pose proof (stmts_no_panic (fn_block f)) as Hb. destruct (parse_stmts R (fn_block f)); cbn [obind]; congruence.
  - intros _. destruct args as [|[[[x [|]]| |]|] rest]; cbn [parse_attrs single_path] in Ea; try discriminate. cbn [tl]. revert Ea. generalize (MacroAttrs x None [] None). induction rest as [|n rest IH]; intros a E; cbn [parse_attr_loop] in E; [discriminate|]. destruct (parse_attr R a n) as [a'| |] eqn:En; cbn [obind] in E; [|discriminate|].
    + destruct (IH _ E) as (y & s & Hin & H). exists y, s. split; [now right|exact H].
    + apply attr_panics in En as (y & s & -> & H). exists y, s. split; [now left|exact H].
Qed.
End P.
