(** C57: what [transmute] does to the types of a script. *)
From Verif Require Import Base BaseLemmas Model_ByteArray Model_Opcode Model_Script Model_Behavior Model_Macro Spec_Macro Spec_Network
  Model_Mock Model_MacroType Spec_MacroType.
Local Open Scope string_scope.
Local Open Scope list_scope.
Local Open Scope Z_scope.

Lemma position_least {A} (p : A -> bool) l d : position p l = Some d -> (exists x, nth_error l d = Some x /\ p x = true) /\ forall e y, (e < d)%nat -> nth_error l e = Some y -> p y = false.
Proof.
  revert d. induction l as [|x l IH]; intros d E; cbn [position] in E; [discriminate|]. destruct (p x) eqn:P.
  - injection E as <-. split; [exists x; auto|intros e y H; lia].
  - destruct (position p l) as [k|]; [|discriminate]. injection E as <-. destruct (IH k eq_refl) as [H1 H2]. split; [exact H1|].
    intros [|e] y He Hy; cbn [nth_error] in Hy; [injection Hy as <-; exact P|]. eapply H2; [|exact Hy]. lia.
Qed.
Lemma tfind_spec x atoms l : forall prev d i, tfind_loop x atoms prev l = Ok (Some (d, i)) ->
  (prev = Some (d, i) \/ exists v s, In (v, s) l /\ holds (ts_condition s) atoms = true /\ nth_error (ts_stack s) d = Some i) /\
  (forall d' i', prev = Some (d', i') -> d' = d) /\
  forall v s, In (v, s) l -> holds (ts_condition s) atoms = true -> position (fun i => String.eqb x (it_name (t_item i))) (ts_stack s) = Some d.
Proof.
  induction l as [|[v s] l IH]; intros prev d i E; cbn [tfind_loop] in E; [injection E as ->; split; [now left|]; split; [intros ? ? [= -> ->]; reflexivity|intros ? ? []]|].
  destruct (holds (ts_condition s) atoms) eqn:Hh.
  - destruct (position _ (ts_stack s)) as [k|] eqn:P; [|discriminate]. destruct (nth_error (ts_stack s) k) as [j|] eqn:N; [|discriminate].
    assert (tfind_loop x atoms (Some (k, j)) l = Ok (Some (d, i)) /\ forall d' i', prev = Some (d', i') -> d' = k) as (E' & Hp).
    { destruct prev as [[d' i']|]; [|split; [exact E|discriminate]]. destruct (Nat.eqb_spec d' k) as [->|]; [|discriminate]. split; [exact E|]. intros ? ? [= -> ->]. reflexivity. }
    destruct (IH _ _ _ E') as (H1 & H2 & H3). pose proof (H2 k j eq_refl) as ->. split; [right; destruct H1 as [[= ->]|(v' & s' & Hi & H')]; [exists v, s; auto using in_eq|exists v', s'; auto using in_cons]|].
    split; [exact Hp|]. intros v' s' [[= <- <-]|Hi] Hs; [exact P|eapply H3; eassumption].
  - destruct (IH _ _ _ E) as (H1 & H2 & H3). split; [destruct H1 as [H1|(v' & s' & Hi & H')]; [now left|right; exists v', s'; auto using in_cons]|]. split; [exact H2|].
    intros v' s' [[= <- <-]|Hi] Hs; [congruence|eapply H3; eassumption].
Qed.

(** [transmute(x, T)] emits no op and leaves the tracked stacks alone.  If rustc accepts, [T] is a type, the topmost
    item named [x] is equally deep in all possible states, from there on its variable (that of one of these states, if
    they differ) has the type [T], and all other variables keep their types. *)
Theorem C57_transmute : forall type_of x ty outs g G g' code lines G',
  trun_opcode type_of (OpcodeStmt "transmute" (Some [InIdent x; ty]) outs) g = Ok (g', code, lines) -> check_lines G lines = Some G' ->
  g' = g /\ code = [] /\ exists t depth s i,
    type_of (input_text ty) = Some t /\ tpossible g s /\ nth_error (ts_stack s) depth = Some i /\
    (forall s', tpossible g s' -> exists j, nth_error (ts_stack s') depth = Some j /\ it_name (t_item j) = x /\
       forall e y, (e < depth)%nat -> nth_error (ts_stack s') e = Some y -> it_name (t_item y) <> x) /\
    lookup G' (t_ident i) = Some t /\ forall y, y <> t_ident i -> lookup G' y = lookup G y.
Proof.
  intros type_of x ty outs g G g' code lines G' E C. unfold trun_opcode in E. cbn [os_ident] in E. change (opcode_by_name "transmute") with (@None opcode) in E. cbv iota in E.
  unfold trun_opcode_function in E. cbn [os_ident os_inputs os_outputs] in E. change (String.eqb "transmute" "depth_of") with false in E. change (String.eqb "transmute" "depth_of_offset") with false in E.
  change (String.eqb "transmute" "transmute") with true in E. cbv iota in E.
  assert (trun_transmute type_of (OpcodeStmt "transmute" (Some [InIdent x; ty]) outs) g x (input_text ty) = Ok (g', code, lines)) as F.
  { destruct outs as [[|o [|]]|]; try exact E. destruct (String.eqb o x); [exact E|discriminate]. }
  clear E. unfold trun_transmute in F. destruct (tv_find x (tg_vs g)) as [[d i]| |] eqn:T; try discriminate. cbn [obind] in F. injection F as <- <- <-.
  split; [reflexivity|]. split; [reflexivity|]. cbn [check_lines check_line] in C. destruct (type_of (input_text ty)) as [t|]; [|discriminate]. injection C as <-.
  unfold tv_find in T. destruct (tfind_loop x (tv_atoms (tg_vs g)) None (tv_states (tg_vs g))) as [[p|]| |] eqn:L; try discriminate. injection T as ->.
  destruct (tfind_spec _ _ _ _ _ _ L) as ([H|(v & s & Hi & Hh & N)] & _ & H3); [discriminate|].
  exists t, d, s, i. split; [reflexivity|]. split; [exists v; auto|]. split; [exact N|]. split.
  - intros s' (w & Hw & Hs). pose proof (H3 w s' Hw Hs) as P. destruct (position_least _ _ _ P) as [(j & Nj & Pj) Hl]. exists j. split; [exact Nj|]. split; [symmetry; now apply String.eqb_eq|].
    intros e y He Hy Q. pose proof (Hl e y He Hy) as B. apply String.eqb_neq in B. congruence.
  - cbn [lookup]. rewrite String.eqb_refl. split; [reflexivity|]. intros y Hy. destruct (String.eqb_spec (t_ident i) y); [congruence|]. destruct (String.eqb_spec y (t_ident i)); [congruence|reflexivity].
Qed.
Print Assumptions C57_transmute.
Example C57_transmute_nonvacuous : let g := TGen (TVStates [("m", TState [] [TItem (Item "b" false None) "b"; TItem (Item "a" false None) "__a"] [])] []) 0 in
  exists g' code lines, trun_opcode (fun s => if String.eqb s "Integer" then Some RInt else None) (OpcodeStmt "transmute" (Some [InIdent "a"; InExpr "Integer" 0]) None) g = Ok (g', code, lines) /\
    check_lines [("__a", RBytes); ("b", RBool)] lines = Some [("__a", RInt); ("__a", RBytes); ("b", RBool)].
Proof. do 3 eexists. split; reflexivity. Qed.
