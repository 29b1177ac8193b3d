(** C37 (bracket structure of script bodies) and C38 (variant predicates). *)
From Verif Require Import Base BaseLemmas Model_ByteArray Model_Opcode Model_Script Model_Macro Spec_Macro Proofs_Macro.
Local Open Scope string_scope.
Local Open Scope list_scope.
Local Open Scope Z_scope.

(** ** C37 *)
(** A body written from a properly bracketed tree in which an IF directly inside a then-branch has no ELSE and one directly
    inside an else-branch has one is parsed back to exactly that tree. *)
Theorem C37_nested (l : list stmt) : Forall proper l -> Forall nesting_ok l -> parse_op_if (body l) = Ok l.
Proof.
  intros Hp Hn. rewrite parse_exact by assumption. f_equal. induction l as [|s l IH]; [reflexivity|]. inversion Hp; inversion Hn; subst. cbn [map].
  rewrite misplace_ok by assumption. cbn [fst]. f_equal. auto.
Qed.
Print Assumptions C37_nested.
(** For every properly bracketed body the parser returns what [misplace] says: each statement goes to the branch kind
    (then/else) opened by the IF or ELSE written last before it. *)
Theorem C37_exact (l : list stmt) : Forall proper l -> parse_op_if (body l) = Ok (map (fun s => fst (misplace s)) l).
Proof. apply parse_exact. Qed.
Print Assumptions C37_exact.
(** A body of at most one level of conditionals is always parsed back exactly. *)
Theorem C37_flat (l : list stmt) : Forall proper l -> (forall i t e es en x, In (SScriptIf i t e es en) l -> In x (t ++ es) -> written x = [x]) -> parse_op_if (body l) = Ok l.
Proof.
  intros Hp Hf. apply C37_nested; [exact Hp|]. apply Forall_forall. intros s Hs. destruct s as [| | | |i t e es en]; [apply NkPush|apply NkOp|apply NkFor|apply NkRustIf|].
  assert (A : forall x, In x t \/ In x es -> nesting_ok x /\ else_free x /\ else_full x).
  { intros x Hx. specialize (Hf _ _ _ _ _ x Hs (in_or_app _ _ _ Hx)). destruct x as [| | | |? ? [?|] ? ?]; cbn [written] in Hf; try discriminate; [| | |]; repeat split; constructor. }
  apply NkIf; apply Forall_forall; intros x Hx; apply A; auto.
Qed.
Print Assumptions C37_flat.
(** Which bodies are accepted: those whose brackets balance; all others are reported as errors (no panic). *)
Theorem C37_accepts_iff (l : list stmt) : (exists t, parse_op_if l = Ok t) <-> depth_after 0 l = Some O.
Proof.
  unfold parse_op_if. pose proof (parse_depth l (IfParser [] [] true)) as H. cbn [ip_stack length] in H. destruct (depth_after 0 l) as [n|].
  - destruct H as (p & E & Hl). rewrite E. cbn [obind]. destruct (ip_stack p) as [|x r]; cbn [length] in Hl; subst n; split; intros H; eauto; try discriminate; destruct H; discriminate.
  - destruct H as (e & E). rewrite E. cbn [obind]. split; intros H; [destruct H|]; discriminate.
Qed.
Print Assumptions C37_accepts_iff.
Theorem C37_no_panic (l : list stmt) : parse_op_if l <> Panic.
Proof.
  unfold parse_op_if. pose proof (parse_depth l (IfParser [] [] true)) as H. cbn [ip_stack length] in H. destruct (depth_after 0 l) as [n|].
  - destruct H as (p & E & Hl). rewrite E. cbn [obind]. destruct (ip_stack p); discriminate.
  - destruct H as (e & E). rewrite E. discriminate.
Qed.
Print Assumptions C37_no_panic.

Definition ex_op (s : string) : opcode_stmt := OpcodeStmt s None None.
Definition ex_nop (s : string) : stmt := SOpcode (ex_op s).
Definition ex_IF : opcode_stmt := ex_op "OP_IF".
Definition ex_ELSE : opcode_stmt := ex_op "OP_ELSE".
Definition ex_ENDIF : opcode_stmt := ex_op "OP_ENDIF".
Lemma ex_leaf s : s <> "OP_IF" -> s <> "OP_NOTIF" -> s <> "OP_ELSE" -> s <> "OP_ENDIF" -> proper (ex_nop s).
Proof. intros. apply PrOp. unfold is_bracket, is_if, ex_op. cbn. tauto. Qed.
(** The exceptions: a conditional without ELSE inside an else-branch pulls the statements after it (and itself) into the
    then-branch; one with an ELSE inside a then-branch pushes them into an else-branch, even one nobody wrote. *)
Theorem C37_every_nesting_refuted : exists l, Forall proper l /\ exists t, parse_op_if (body l) = Ok t /\ t <> l.
Proof.
  exists [SScriptIf ex_IF [ex_nop "OP_1"] (Some ex_ELSE) [SScriptIf ex_IF [ex_nop "OP_2"] None [] ex_ENDIF; ex_nop "OP_3"] ex_ENDIF].
  split; [|eexists; split; [vm_compute; reflexivity|discriminate]].
  repeat ((apply ex_leaf; discriminate) || (left; reflexivity) || constructor); try (left; reflexivity); try reflexivity; intros ? H || intros H; try discriminate H; try (injection H as <-; reflexivity); reflexivity.
Qed.
Print Assumptions C37_every_nesting_refuted.
Theorem C37_else_without_else_refuted : exists l, Forall proper l /\
  parse_op_if (body l) = Ok [SScriptIf ex_IF [] None [SScriptIf ex_IF [] (Some ex_ELSE) [] ex_ENDIF; ex_nop "OP_3"] ex_ENDIF].
Proof.
  exists [SScriptIf ex_IF [SScriptIf ex_IF [] (Some ex_ELSE) [] ex_ENDIF; ex_nop "OP_3"] None [] ex_ENDIF].
  split; [|vm_compute; reflexivity].
  repeat ((apply ex_leaf; discriminate) || (left; reflexivity) || constructor); try (left; reflexivity); try reflexivity; intros ? H || intros H; try discriminate H; try (injection H as <-; reflexivity); reflexivity.
Qed.
Print Assumptions C37_else_without_else_refuted.
(** A second ELSE (allowed by the script machine) is accepted but lost: what is parsed no longer contains it. *)
Theorem C37_second_else_refuted : exists l t, parse_op_if l = Ok t /\ body t <> l.
Proof.
  exists [SOpcode ex_IF; ex_nop "OP_1"; SOpcode ex_ELSE; ex_nop "OP_2"; SOpcode ex_ELSE; ex_nop "OP_3"; SOpcode ex_ENDIF]. eexists. split; [vm_compute; reflexivity|]. vm_compute. discriminate.
Qed.
Print Assumptions C37_second_else_refuted.
(** If the parser's tree has the text that was written, the tree is proper-shaped exactly as written: parsing is determined by the text. *)
Theorem C37_deterministic (l l' : list stmt) : Forall proper l -> Forall nesting_ok l -> Forall proper l' -> Forall nesting_ok l' -> body l = body l' -> l = l'.
Proof. intros H1 H2 H3 H4 E. pose proof (C37_nested l H1 H2) as A. rewrite E, C37_nested in A by assumption. congruence. Qed.
Print Assumptions C37_deterministic.
Definition ex_tree : list stmt :=
  [ex_nop "OP_1"; SScriptIf ex_IF [ex_nop "OP_2"; SScriptIf (ex_op "OP_NOTIF") [ex_nop "OP_3"] None [] ex_ENDIF; ex_nop "OP_4"] (Some ex_ELSE)
     [ex_nop "OP_5"; SScriptIf ex_IF [] (Some ex_ELSE) [ex_nop "OP_6"] ex_ENDIF; ex_nop "OP_7"] ex_ENDIF; ex_nop "OP_8"].
Example C37_nonvacuous : Forall proper ex_tree /\ Forall nesting_ok ex_tree /\ length (body ex_tree) = 16%nat /\ depth_after 0 (body ex_tree) = Some O.
Proof.
  split; [|split; [|split; vm_compute; reflexivity]].
  - repeat ((apply ex_leaf; discriminate) || (left; reflexivity) || constructor); try (left; reflexivity); try (right; reflexivity); try reflexivity; intros ? H || intros H; try discriminate H; try (injection H as <-; reflexivity); reflexivity.
  - repeat constructor.
Qed.

(** ** C38 *)
(** A variant stays possible at a point of the script exactly when some assignment of truth values to the variables agrees
    with the branches taken and makes the variant's predicate true. *)
Theorem C38_holds_iff (p : predicate) (taken : list atom) : consistent taken -> (forall c, In c p -> consistent c) ->
  (holds p taken = true <-> exists s, satisfies s p /\ forall i, In i taken -> literal s i).
Proof. intros Ht Hp. split; [now apply holds_sat|]. intros (s & Hs & Hl). exact (sat_holds s p taken Hs Hl). Qed.
Print Assumptions C38_holds_iff.
(** Once every variable the predicate mentions has been decided, [holds] is the predicate's boolean value. *)
Theorem C38_holds_decided (p : predicate) (s : valuation) (taken : list atom) : (forall i, In i taken -> literal s i) ->
  (forall c a, In c p -> In a c -> exists i, In i taken /\ var_name i = var_name a) -> (holds p taken = true <-> satisfies s p).
Proof.
  intros Hl Hall. split; [|intros Hs; exact (sat_holds s p taken Hs Hl)]. intros H. apply holds_spec in H. destruct H as [->|(c & Hc & H)]; [now left|].
  right. exists c. split; [exact Hc|]. intros a Ha. destruct (Hall c a Hc Ha) as (i & Hi & E). specialize (H a i Ha Hi E). specialize (Hl i Hi). unfold literal in *. congruence.
Qed.
Print Assumptions C38_holds_decided.
Theorem C38_always (taken : list atom) : holds [] taken = true.
Proof. reflexivity. Qed.
Print Assumptions C38_always.
(** Taking more branches never makes a variant possible again. *)
Theorem C38_monotone (p : predicate) (taken more : list atom) : holds p (taken ++ more) = true -> holds p taken = true.
Proof. apply holds_mono. intros i Hi. apply in_or_app. now left. Qed.
Print Assumptions C38_monotone.
(** At every conditional a possible variant remains possible in at least one branch. *)
Theorem C38_some_branch (p : predicate) (taken : list atom) (v : string) : (forall c, In c p -> consistent c) -> consistent taken -> holds p taken = true ->
  holds p (taken ++ [Atom v true]) = true \/ holds p (taken ++ [Atom v false]) = true.
Proof.
  intros Hp Ht H. destruct (holds_sat p taken Ht Hp H) as (s & Hs & Hl). destruct (s v) eqn:E; [left|right]; apply (sat_holds s); auto; intros i Hi;
    apply in_app_or in Hi; destruct Hi as [Hi|[<-|[]]]; auto; exact E.
Qed.
Print Assumptions C38_some_branch.
(** The exception: a contradictory conjunction is "possible" as long as its variable is undecided. *)
Theorem C38_contradiction_refuted : exists p, holds p [] = true /\ forall s, ~ satisfies s p.
Proof.
  exists [[Atom "a" true; Atom "a" false]]. split; [reflexivity|]. intros s [H|(c & [<-|[]] & H)]; [discriminate|].
  pose proof (H _ (or_introl eq_refl)) as A. pose proof (H _ (or_intror (or_introl eq_refl))) as B. unfold literal in *. cbn in *. congruence.
Qed.
Print Assumptions C38_contradiction_refuted.
(** Texts of predicates: the parser accepts exactly the texts of predicates and returns the predicate written. *)
Theorem C38_parse (alnum : Z -> bool) (s : list Z) (p : list (list (bool * list Z))) : alnum 124 = false -> alnum 38 = false -> alnum 33 = false ->
  (parse_predicate alnum s = Ok p <-> s = predicate_text p /\ predicate_ok alnum p).
Proof. intros H1 H2 H3. split; [now apply parse_predicate_inv|]. intros (-> & H). now apply parse_predicate_text. Qed.
Print Assumptions C38_parse.
Theorem C38_parse_unambiguous (alnum : Z -> bool) (p q : list (list (bool * list Z))) : alnum 124 = false -> alnum 38 = false -> alnum 33 = false ->
  predicate_ok alnum p -> predicate_ok alnum q -> predicate_text p = predicate_text q -> p = q.
Proof. intros H1 H2 H3 Hp Hq E. pose proof (proj2 (C38_parse alnum _ p H1 H2 H3) (conj eq_refl Hp)) as A. rewrite E, parse_predicate_text in A by assumption. congruence. Qed.
Print Assumptions C38_parse_unambiguous.
(** The exception: a text whose literal starts with a non-ASCII character makes the parser panic (string slicing), though
    the character is alphanumeric. *)
Theorem C38_parse_no_panic_refuted : exists s, forall alnum, parse_predicate alnum s = Panic.
Proof. exists [233]. reflexivity. Qed.
Print Assumptions C38_parse_no_panic_refuted.
Example C38_nonvacuous :
  let p := [[Atom "a" true; Atom "b" false]; [Atom "c" true]] in
  let taken := [Atom "a" true; Atom "c" false] in
  consistent taken /\ (forall c, In c p -> consistent c) /\ holds p taken = true /\ holds p [Atom "b" true; Atom "c" false] = false.
Proof.
  cbn. split; [|split; [|split; reflexivity]].
  - intros a b [<-|[<-|[]]] [<-|[<-|[]]]; cbn; congruence.
  - intros c [<-|[<-|[]]] a b Ha Hb; cbn in Ha, Hb; repeat match goal with H : _ \/ _ |- _ => destruct H | H : False |- _ => destruct H end; subst; cbn; congruence.
Qed.
Example C38_parse_nonvacuous :
  let alnum c := ((48 <=? c) && (c <=? 57)) || ((65 <=? c) && (c <=? 90)) || ((97 <=? c) && (c <=? 122)) in
  (* "ab&&!c||d_" *)
  parse_predicate alnum [97; 98; 38; 38; 33; 99; 124; 124; 100; 95] = Ok [[(true, [97; 98]); (false, [99])]; [(true, [100; 95])]].
Proof. vm_compute. reflexivity. Qed.
