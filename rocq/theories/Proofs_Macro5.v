(** Lemmas for C39: statements, conditionals, whole scripts. *)
From Verif Require Import Base BaseLemmas Spec_Encoding Model_Integer Model_ByteArray Model_Opcode Model_Script Model_Behavior Model_Macro Spec_Macro Proofs_Integer Proofs_Script Proofs_Macro Proofs_Macro2 Proofs_Macro3 Proofs_Macro4.
Local Open Scope string_scope.
Local Open Scope list_scope.
Local Open Scope Z_scope.

(** ** Unfolding *)
Lemma run_if_eq i t e es en g : run_stmt (SScriptIf i t e es en) g =
  do (g0, c_if) <- run_opcode i g;
  match if_variable i with
  | None => Err (EMsg 24)
  | Some var =>
    do (g1, c_then) <- run_stmts t (with_atom (Atom var true) g0);
    do (g2, c_else_op) <- match e with Some o => run_opcode o g1 | None => Ok (g1, []) end;
    do (g3, c_else) <- run_stmts es (with_atom (Atom var false) (Gen (g_vs g0) (g_n g2)));
    do (g4, c_endif) <- run_opcode en g3;
    Ok (Gen (VStates (merge_states (vs_atoms (g_vs g0) ++ [Atom var true]) (vs_atoms (g_vs g0) ++ [Atom var false]) (vs_states (g_vs g2)) (vs_states (g_vs g4))) (vs_atoms (g_vs g0))) (g_n g4),
        c_if ++ c_then ++ c_else_op ++ c_else ++ c_endif)
  end.
Proof. reflexivity. Qed.
Lemma run_stmts_cons s l g : run_stmts (s :: l) g = do (g1, c1) <- run_stmt s g; do (g2, c2) <- run_stmts l g1; Ok (g2, c1 ++ c2).
Proof. reflexivity. Qed.
Lemma along_if P i t e es en g : along P (SScriptIf i t e es en) g <->
  P i g /\ forall g0 c0 var, run_opcode i g = Ok (g0, c0) -> if_variable i = Some var ->
      all_along P t (with_atom (Atom var true) g0) /\
      forall g1 c1 g2 c2, run_stmts t (with_atom (Atom var true) g0) = Ok (g1, c1) -> match e with Some o => run_opcode o g1 | None => Ok (g1, []) end = Ok (g2, c2) ->
        all_along P es (with_atom (Atom var false) (Gen (g_vs g0) (g_n g2))) /\
        forall g3 c3, run_stmts es (with_atom (Atom var false) (Gen (g_vs g0) (g_n g2))) = Ok (g3, c3) -> balanced var (vs_atoms (g_vs g0)) g1 g3.
Proof.
  cbn [along]. set (all := fix all (l : list stmt) (g : gen) {struct l} : Prop := match l with [] => True | s :: r => along P s g /\ forall g1 c1, run_stmt s g = Ok (g1, c1) -> all r g1 end).
  assert (Hall : forall l g, all l g <-> all_along P l g). { induction l as [|s l IH]; intros g'; [reflexivity|]. cbn. fold all. split; intros (A & B); (split; [exact A|]); intros g1 c1 E; apply IH; eauto. }
  split; intros (H1 & H2); (split; [exact H1|]); intros g0 c0 var E V; destruct (H2 g0 c0 var E V) as (A & B); (split; [now apply Hall|]); intros g1 c1 g2 c2 E1 E2; destruct (B g1 c1 g2 c2 E1 E2) as (C & D); (split; [now apply Hall|exact D]).
Qed.

(** ** What never changes: the variants, their conditions, the atoms *)
Definition keys (l : list (string * state)) : list (string * predicate) := map (fun p => (fst p, st_condition (snd p))) l.
Definition kept (g g' : gen) : Prop := keys (vs_states (g_vs g')) = keys (vs_states (g_vs g)) /\ vs_atoms (g_vs g') = vs_atoms (g_vs g).
Lemma kept_refl g : kept g g. Proof. split; reflexivity. Qed.
Lemma kept_trans a b c : kept a b -> kept b c -> kept a c.
Proof. intros (A & B) (C & D). split; congruence. Qed.
Lemma pop_loop_keys is_alt atoms l : forall prev l' res, pop_loop is_alt atoms prev l = Ok (l', res) -> keys l' = keys l.
Proof.
  induction l as [|[v s] l IH]; intros prev l' res E; cbn [pop_loop] in E; [injection E as <- <-; reflexivity|].
  destruct (holds (st_condition s) atoms).
  - destruct (the_stack s is_alt) as [|i rest]; [discriminate|]. destruct (consistent_names prev i); [|discriminate]. destruct (pop_loop is_alt atoms (Some i) l) as [[r' res']| |] eqn:El; try discriminate. cbn [obind] in E. injection E as <- <-.
    cbn [keys map fst snd]. rewrite with_stack_condition. f_equal. exact (IH _ _ _ El).
  - destruct (pop_loop is_alt atoms prev l) as [[r' res']| |] eqn:El; try discriminate. cbn [obind] in E. injection E as <- <-. cbn [keys map fst snd]. f_equal. exact (IH _ _ _ El).
Qed.
Lemma pop_kept is_alt g i g' : g_pop is_alt g = Ok (i, g') -> kept g g'.
Proof.
  unfold g_pop, vs_pop. intros E. destruct (pop_loop is_alt (vs_atoms (g_vs g)) None (vs_states (g_vs g))) as [[l' res]| |] eqn:El; try discriminate. cbn [obind] in E. destruct res; [|discriminate]. cbn [obind] in E. injection E as <- <-.
  split; [cbn; eapply pop_loop_keys; eassumption|reflexivity].
Qed.
Lemma pick_loop_keys d rl atoms l : forall prev l' res, pick_loop d rl atoms prev l = Ok (l', res) -> keys l' = keys l.
Proof.
  induction l as [|[v s] l IH]; intros prev l' res E; cbn [pick_loop] in E; [injection E as <- <-; reflexivity|].
  destruct (holds (st_condition s) atoms).
  - destruct (nth_error (st_stack s) d) as [i|]; [|discriminate]. destruct (consistent_names prev i); [|discriminate]. destruct (pick_loop d rl atoms (Some i) l) as [[r' res']| |] eqn:El; try discriminate. cbn [obind] in E. injection E as <- <-.
    cbn [keys map fst snd]. f_equal; [destruct rl; now rewrite ?with_stack_condition|]. exact (IH _ _ _ El).
  - destruct (pick_loop d rl atoms prev l) as [[r' res']| |] eqn:El; try discriminate. cbn [obind] in E. injection E as <- <-. cbn [keys map fst snd]. f_equal. exact (IH _ _ _ El).
Qed.
Lemma pick_kept d rl g i vs : vs_pick_roll d rl (g_vs g) = Ok (i, vs) -> forall n, kept g (Gen vs n).
Proof.
  unfold vs_pick_roll. intros E n. destruct (pick_loop d rl (vs_atoms (g_vs g)) None (vs_states (g_vs g))) as [[l' res]| |] eqn:El; try discriminate. cbn [obind] in E. destruct res; [|discriminate]. injection E as <- <-.
  split; [cbn; eapply pick_loop_keys; eassumption|reflexivity].
Qed.
Lemma push_kept is_alt i g : kept g (g_push is_alt i g).
Proof.
  split; [|reflexivity]. unfold g_push, vs_push. cbn [g_vs vs_states]. unfold keys. rewrite map_map. apply map_ext. intros [v s]. cbn [fst snd]. destruct (holds _ _); [now rewrite with_stack_condition|reflexivity].
Qed.
Lemma pushes_kept l : forall g, kept g (fold_left (fun g i => g_push false i g) l g).
Proof. induction l as [|i l IH]; intros g; [apply kept_refl|]. cbn [fold_left]. eapply kept_trans; [apply push_kept|apply IH]. Qed.
Lemma pop_n_kept n : forall g acc items g', pop_n n g acc = Ok (items, g') -> kept g g'.
Proof.
  induction n as [|n IH]; intros g acc items g' E; cbn [pop_n] in E; [injection E as <- <-; apply kept_refl|]. destruct (g_pop false g) as [[i g1]| |] eqn:Ep; try discriminate. cbn [obind] in E. eapply kept_trans; [eapply pop_kept; eassumption|eauto].
Qed.
Lemma same_vs_kept g g' : g_vs g' = g_vs g -> kept g g'.
Proof. intros E. split; now rewrite E. Qed.
Lemma other_kept c o g g' code : run_other_opcode c o g = Ok (g', code) -> kept g g'.
Proof.
  unfold run_other_opcode. intros E. destruct (opcode_behavior c) as [b| |]; try discriminate. cbn [obind] in E. destruct (pop_n (length (b_input_types b)) g []) as [[ins g1]| |] eqn:Ep; try discriminate. cbn [obind] in E.
  match type of E with obind ?x _ = _ => destruct x as [[]| |]; try discriminate end. cbn [obind] in E. fold (made_outputs c o b ins g1) in E. destruct (made_outputs c o b ins g1) as [[pushed g2]| |] eqn:Eo; try discriminate. cbn [obind] in E.
  destruct (func_exists c); [|discriminate]. injection E as <- <-. eapply kept_trans; [eapply pop_n_kept; eassumption|]. eapply kept_trans; [apply same_vs_kept; eapply outputs_vs; eassumption|]. apply pushes_kept.
Qed.
Lemma depth_of_kept o g x z g' code : run_depth_of o g x z = Ok (g', code) -> kept g g'.
Proof.
  unfold run_depth_of. intros E. destruct (vs_find x (g_vs g)); try discriminate. cbn [obind] in E. assert (H : exists name g1, g_vs g1 = g_vs g /\ match os_outputs o with Some [n] => (n, g) | _ => make_ident g end = (name, g1)).
  { destruct (os_outputs o) as [[|n [|]]|]; eexists; eexists; (split; [|reflexivity]); reflexivity. }
  destruct H as (name & g1 & Ev & Eq). rewrite Eq in E. destruct (integer_new _); try discriminate. cbn [obind] in E. injection E as <- <-. eapply kept_trans; [apply same_vs_kept; exact Ev|apply push_kept].
Qed.
Lemma opcode_kept o g g' code : run_opcode o g = Ok (g', code) -> kept g g'.
Proof.
  unfold run_opcode. intros E. destruct (opcode_by_name (os_ident o)) as [c|].
  - assert (D : run_other_opcode c o g = Ok (g', code) \/ c = OP_TOALTSTACK \/ c = OP_FROMALTSTACK \/ c = OP_PICK \/ c = OP_ROLL) by (destruct c; auto). destruct D as [D|D]; [now apply other_kept in D|].
    assert (Hpr : forall c0, (do (d, g1) <- g_pop false g; do _ <- verify_item_name o d; do depth <- match it_integer d with Some k => if k <? 0 then Err (EMsg 21) else Ok (Z.to_nat k) | None => Ok O end;
      do (i, vs) <- vs_pick_roll depth (opcode_eqb c0 OP_ROLL) (g_vs g1); do i' <- update_item_name o i; Ok (g_push false i' (Gen vs (g_n g1)), [Emitted (EmCode c0) [name_tokens i'] [] (SOpcode o)])) = Ok (g', code) -> kept g g').
    { clear E D. intros c0 E. destruct (g_pop false g) as [[i g1]| |] eqn:Ep; try discriminate; cbn [obind] in E. destruct (verify_item_name o i) as [[]| |]; try discriminate; cbn [obind] in E.
      destruct (match it_integer i with Some k => if k <? 0 then Err (EMsg 21) else Ok (Z.to_nat k) | None => Ok O end) as [dd| |]; try discriminate; cbn [obind] in E. destruct (vs_pick_roll dd (opcode_eqb c0 OP_ROLL) (g_vs g1)) as [[j vs]| |] eqn:Eq; try discriminate; cbn [obind] in E. destruct (update_item_name o j); try discriminate; cbn [obind] in E. injection E as <- <-.
      eapply kept_trans; [eapply pop_kept; eassumption|]. eapply kept_trans; [eapply (pick_kept _ _ g1); eassumption|apply push_kept]. }
    destruct D as [-> |[->|[->| ->]]].
    + destruct (g_pop false g) as [[i g1]| |] eqn:Ep; try discriminate; cbn [obind] in E. destruct (verify_item_name o i) as [[]| |]; try discriminate; cbn [obind] in E. destruct (update_item_name o i); try discriminate; cbn [obind] in E. injection E as <- <-. eapply kept_trans; [eapply pop_kept; eassumption|apply push_kept].
    + destruct (g_pop true g) as [[i g1]| |] eqn:Ep; try discriminate; cbn [obind] in E. destruct (verify_item_name o i) as [[]| |]; try discriminate; cbn [obind] in E. destruct (update_item_name o i); try discriminate; cbn [obind] in E. injection E as <- <-. eapply kept_trans; [eapply pop_kept; eassumption|apply push_kept].
    + exact (Hpr OP_PICK E).
    + exact (Hpr OP_ROLL E).
  - unfold run_opcode_function in E. destruct (String.eqb (os_ident o) "depth_of"). { destruct (os_inputs o) as [[|[ident|] [|]]|]; try discriminate E. now apply depth_of_kept in E. }
    destruct (String.eqb (os_ident o) "depth_of_offset"). { destruct (os_inputs o) as [[|[ident|] [|[|t z] [|]]]|]; try discriminate E. now apply depth_of_kept in E. }
    destruct (String.eqb (os_ident o) "transmute"); [|discriminate E]. destruct (os_inputs o) as [[|[ident|] [|? [|]]]|]; try discriminate E. destruct (os_outputs o) as [[|out [|]]|]; repeat match type of E with
      | (if ?b then _ else _) = _ => destruct b; [|discriminate E]
      | obind ?x _ = _ => destruct x; try discriminate E; cbn [obind] in E end; injection E as <- <-; apply kept_refl.
Qed.
Lemma merge_keys a b : forall x y, keys x = keys y -> keys (merge_states a b x y) = keys y.
Proof.
  induction x as [|[v s] x IH]; intros [|[w t] y] E; try discriminate; [reflexivity|]. cbn [keys map fst snd] in E. injection E as E1 E2 E3. cbn [merge_states keys map fst snd]. fold (keys (merge_states a b x y)). fold (keys y). rewrite IH by exact E3. destruct (_ && _); cbn [fst snd]; [rewrite E2|]; reflexivity.
Qed.
Lemma merge_nth a b : forall x y k v s w t, keys x = keys y -> nth_error x k = Some (v, s) -> nth_error y k = Some (w, t) ->
  nth_error (merge_states a b x y) k = Some (w, if holds (st_condition t) a && negb (holds (st_condition t) b) then s else t).
Proof.
  induction x as [|[v0 s0] x IH]; intros [|[w0 t0] y] [|k] v s w t E Hx Hy; try discriminate; cbn [keys map fst snd] in E; injection E as E1 E2 E3; cbn [nth_error merge_states] in *.
  - injection Hx as <- <-. injection Hy as <- <-. reflexivity.
  - now apply (IH y k v s w t).
Qed.
Lemma stmt_kept s : forall g g' code, run_stmt s g = Ok (g', code) -> kept g g'.
Proof.
  induction s as [e n|o|b|a b|i t e es en IHt IHe] using stmt_ind'; intros g g' code E; try discriminate.
  - cbn [run_stmt] in E. unfold run_push in E. destruct n; cbn [make_ident] in E; injection E as <- <-; [apply push_kept|]. eapply kept_trans; [apply (same_vs_kept g (Gen (g_vs g) (S (g_n g)))); reflexivity|apply push_kept].
  - exact (opcode_kept _ _ _ _ E).
  - assert (HL : forall l, Forall (fun s => forall g g' code, run_stmt s g = Ok (g', code) -> kept g g') l -> forall g g' code, run_stmts l g = Ok (g', code) -> kept g g').
    { induction 1 as [|s l Hs _ IH]; intros g1 g1' c1 E1; [injection E1 as <- <-; apply kept_refl|]. rewrite run_stmts_cons in E1. destruct (run_stmt s g1) as [[g2 c2]| |] eqn:E2; try discriminate. cbn [obind] in E1. destruct (run_stmts l g2) as [[g3 c3]| |] eqn:E3; try discriminate. cbn [obind] in E1. injection E1 as <- <-. eapply kept_trans; eauto. }
    rewrite run_if_eq in E. destruct (run_opcode i g) as [[g0 c0]| |] eqn:E0; try discriminate. cbn [obind] in E. destruct (if_variable i) as [var|]; [|discriminate].
    destruct (run_stmts t _) as [[g1 c1]| |] eqn:E1; try discriminate. cbn [obind] in E. destruct (match e with Some o => run_opcode o g1 | None => Ok (g1, []) end) as [[g2 c2]| |] eqn:E2; try discriminate. cbn [obind] in E.
    destruct (run_stmts es _) as [[g3 c3]| |] eqn:E3; try discriminate. cbn [obind] in E. destruct (run_opcode en g3) as [[g4 c4]| |] eqn:E4; try discriminate. cbn [obind] in E. injection E as <- <-.
    apply opcode_kept in E0, E4. apply (HL t IHt) in E1. apply (HL es IHe) in E3. assert (K2 : kept g1 g2) by (destruct e; [now apply opcode_kept in E2|injection E2 as <- <-; apply kept_refl]).
    destruct E0 as (A0 & B0), E1 as (A1 & _), K2 as (A2 & _), E3 as (A3 & _), E4 as (A4 & _). cbn [with_atom g_vs vs_states] in A1, A3. split; [|exact B0]. cbn [g_vs vs_states]. rewrite merge_keys by congruence. congruence.
Qed.
Lemma stmts_kept l : forall g g' code, run_stmts l g = Ok (g', code) -> kept g g'.
Proof.
  induction l as [|s l IH]; intros g1 g1' c1 E1; [injection E1 as <- <-; apply kept_refl|]. rewrite run_stmts_cons in E1. destruct (run_stmt s g1) as [[g2 c2]| |] eqn:E2; try discriminate. cbn [obind] in E1. destruct (run_stmts l g2) as [[g3 c3]| |] eqn:E3; try discriminate. cbn [obind] in E1. injection E1 as <- <-.
  eapply kept_trans; [eapply stmt_kept; eassumption|eauto].
Qed.
Lemma kept_nth g g' k v s : kept g g' -> nth_error (vs_states (g_vs g)) k = Some (v, s) -> exists s', nth_error (vs_states (g_vs g')) k = Some (v, s') /\ st_condition s' = st_condition s.
Proof.
  intros (E & _) Hk. assert (H : nth_error (keys (vs_states (g_vs g'))) k = Some (v, st_condition s)). { rewrite E. unfold keys. now rewrite (map_nth_error _ _ _ Hk). }
  unfold keys in H. rewrite nth_error_map in H. destruct (nth_error (vs_states (g_vs g')) k) as [[v' s']|]; [|discriminate]. cbn in H. injection H as <- E'. exists s'. auto.
Qed.

(** ** Safe code *)
Fixpoint safe (sigma : valuation) (code : list emitted) (Q : config -> Prop) (c : config) : Prop :=
  match code with
  | [] => Q c
  | e :: r => good e c /\ forall c', machine_step sigma e c c' -> (active c = true -> records e c') /\ safe sigma r Q c'
  end.
Lemma safe_reaches sigma code Q c : safe sigma code Q c -> forall code' c', reaches sigma (code, c) (code', c') -> safe sigma code' Q c'.
Proof.
  intros H code' c' Hr. remember (code, c) as x eqn:Ex. remember (code', c') as y eqn:Ey. revert code c Ex H. induction Hr as [x|e rest d d' y Hs _ IH]; intros code c Ex H.
  - subst. injection Ex as <- <-. exact H.
  - injection Ex as <- <-. destruct H as (_ & H). apply (IH Ey rest d' eq_refl). now apply H.
Qed.
Lemma safe_leaf sigma e rest Q main alt ex : forallb (fun b => b) ex = true -> ~ is_control (em_op e) -> good_op e main alt ->
  (forall main' alt', op_step e main alt main' alt' -> records e (Config main' alt' ex) /\ safe sigma rest Q (Config main' alt' ex)) -> safe sigma (e :: rest) Q (Config main alt ex).
Proof.
  intros Hex Hc Hg Hs. cbn [safe]. split.
  - split; [intros [E|E]; exfalso; apply Hc; unfold is_control; tauto|]. intros _. exact Hg.
  - intros c' Hst. inversion Hst; subst; try (exfalso; apply Hc; unfold is_control; tauto); [|congruence]. split; [intros _|]; now apply Hs.
Qed.
Lemma safe_skip sigma e rest Q main alt ex : forallb (fun b => b) ex = false -> ~ is_control (em_op e) -> safe sigma rest Q (Config main alt ex) -> safe sigma (e :: rest) Q (Config main alt ex).
Proof.
  intros Hex Hc Hr. cbn [safe]. split.
  - split; [intros [E|E]; exfalso; apply Hc; unfold is_control; tauto|]. unfold active. cbn [c_exec]. congruence.
  - intros c' Hst. inversion Hst; subst; try (exfalso; apply Hc; unfold is_control; tauto); [congruence|]. split; [unfold active; cbn [c_exec]; congruence|exact Hr].
Qed.
Lemma safe_else sigma e rest Q main alt b ex : em_op e = EmCode OP_ELSE -> em_pushed e = [] -> em_alt_pushed e = [] -> in_names e = [] -> safe sigma rest Q (Config main alt (negb b :: ex)) -> safe sigma (e :: rest) Q (Config main alt (b :: ex)).
Proof.
  intros He Hp Ha Hi Hr. cbn [safe]. split.
  - split; [intros _; discriminate|]. intros _. unfold good_op. rewrite He, Hi. split; exact I.
  - intros c' Hst. inversion Hst; subst; try congruence; try (exfalso; match goal with H : ~ is_control _ |- _ => apply H; unfold is_control; tauto end). split; [intros _; unfold records; rewrite Hp, Ha; split; exact I|exact Hr].
Qed.
Lemma safe_endif sigma e rest Q main alt b ex : em_op e = EmCode OP_ENDIF -> em_pushed e = [] -> em_alt_pushed e = [] -> in_names e = [] -> safe sigma rest Q (Config main alt ex) -> safe sigma (e :: rest) Q (Config main alt (b :: ex)).
Proof.
  intros He Hp Ha Hi Hr. cbn [safe]. split.
  - split; [intros _; discriminate|]. intros _. unfold good_op. rewrite He, Hi. split; exact I.
  - intros c' Hst. inversion Hst; subst; try congruence; try (exfalso; match goal with H : ~ is_control _ |- _ => apply H; unfold is_control; tauto end). split; [intros _; unfold records; rewrite Hp, Ha; split; exact I|exact Hr].
Qed.
Lemma safe_if sigma e rest Q i main alt ex : em_op e = EmCode OP_IF -> em_pushed e = [] -> em_alt_pushed e = [] -> forallb (fun b => b) ex = true -> declared (in_names e) (i :: main) ->
  (forall n, r_label i = Some n -> safe sigma rest Q (Config main alt (sigma n :: ex))) -> r_label i <> None -> safe sigma (e :: rest) Q (Config (i :: main) alt ex).
Proof.
  intros He Hp Ha Hex Hd Hr Hn. cbn [safe]. split.
  - split; [intros [E|E]; congruence|]. intros _. unfold good_op. rewrite He. split; [discriminate|exact Hd].
  - intros c' Hst. inversion Hst; subst; try congruence; try (exfalso; match goal with H : ~ is_control _ |- _ => apply H; unfold is_control; tauto end). split; [intros _; unfold records; rewrite Hp, Ha; split; exact I|].
    destruct (r_label i) as [n|] eqn:El; [|congruence]. match goal with H : forall n, Some _ = Some n -> _ |- _ => rewrite <- (H n eq_refl) end. now apply Hr.
Qed.
Lemma safe_if_skip sigma e rest Q main alt ex : em_op e = EmCode OP_IF -> forallb (fun b => b) ex = false -> safe sigma rest Q (Config main alt (false :: ex)) -> safe sigma (e :: rest) Q (Config main alt ex).
Proof.
  intros He Hex Hr. cbn [safe]. split.
  - split; [intros [E|E]; congruence|]. unfold active. cbn [c_exec]. congruence.
  - intros c' Hst. inversion Hst; subst; try congruence; try (exfalso; match goal with H : ~ is_control _ |- _ => apply H; unfold is_control; tauto end). split; [unfold active; cbn [c_exec]; congruence|exact Hr].
Qed.
