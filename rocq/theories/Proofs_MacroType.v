(** Lemmas for C57: the tracker with variables does what the tracker of Model_Macro does. *)
From Verif Require Import Base BaseLemmas Model_Integer Model_ByteArray Model_Opcode Model_Script Model_Behavior Model_Macro Spec_Macro Proofs_Macro Proofs_Macro3 Proofs_Macro5 Model_Mock Model_MacroType Spec_MacroType.
Local Open Scope string_scope.
Local Open Scope list_scope.
Local Open Scope Z_scope.

Definition estate (s : tstate) : state := State (ts_condition s) (map t_item (ts_stack s)) (map t_item (ts_alt s)).
Definition estates (l : list (string * tstate)) : list (string * state) := map (fun p => (fst p, estate (snd p))) l.
Definition evs (vs : tvstates) : vstates := VStates (estates (tv_states vs)) (tv_atoms vs).
Definition egen (g : tgen) : gen := Gen (evs (tg_vs g)) (tg_n g).
Definition emap {A B} (f : A -> B) (r : outcome A) : outcome B := match r with Ok a => Ok (f a) | Err e => Err e | Panic => Panic end.
Definition eres (r : generated) : gen * list emitted := (egen (fst (fst r)), snd (fst r)).

Lemma estate_with s b l : estate (twith_stack s b l) = with_stack (estate s) b (map t_item l).
Proof. destruct b; reflexivity. Qed.
Lemma estate_the s b : the_stack (estate s) b = map t_item (tthe_stack s b).
Proof. destruct b; reflexivity. Qed.
Lemma evs_push b i vs : evs (tv_push b i vs) = vs_push b (t_item i) (evs vs).
Proof.
  unfold evs, tv_push, vs_push, estates. cbn [tv_states tv_atoms vs_states vs_atoms]. f_equal. rewrite !map_map. apply map_ext. intros [v s]. cbn [fst snd].
  change (st_condition (estate s)) with (ts_condition s). destruct (holds _ _); [|reflexivity]. now rewrite estate_with, estate_the.
Qed.
Lemma egen_push b i g : egen (tg_push b i g) = g_push b (t_item i) (egen g).
Proof. unfold egen, tg_push, g_push. cbn [tg_vs tg_n g_vs g_n]. now rewrite evs_push. Qed.
Lemma epop_loop b atoms l : forall prev, emap (fun p => (estates (fst p), option_map t_item (snd p))) (tpop_loop b atoms prev l) = pop_loop b atoms (option_map t_item prev) (estates l).
Proof.
  induction l as [|[v s] l IH]; intros prev; [reflexivity|]. cbn [tpop_loop estates map fst snd pop_loop]. fold (estates l). change (st_condition (estate s)) with (ts_condition s). rewrite estate_the. destruct (holds _ _).
  - destruct (tthe_stack s b) as [|i rest]; [reflexivity|]. cbn [map]. unfold tconsistent. destruct (consistent_names _ _); [|reflexivity]. specialize (IH (Some i)). cbn [option_map] in IH. rewrite <- IH.
    destruct (tpop_loop b atoms (Some i) l) as [[r res]| |]; cbn [obind emap fst snd]; try reflexivity. cbn [estates map fst snd]. now rewrite estate_with.
  - rewrite <- IH. destruct (tpop_loop b atoms prev l) as [[r res]| |]; reflexivity.
Qed.
Lemma epop b g : emap (fun p => (t_item (fst p), egen (snd p))) (tg_pop b g) = g_pop b (egen g).
Proof.
  unfold tg_pop, g_pop, tv_pop, vs_pop, egen, evs. cbn [g_vs vs_states vs_atoms g_n]. pose proof (epop_loop b (tv_atoms (tg_vs g)) (tv_states (tg_vs g)) None) as H. cbn [option_map] in H. rewrite <- H.
  destruct (tpop_loop _ _ _ _) as [[r [i|]]| |]; reflexivity.
Qed.
Lemma map_remove {A B} (f : A -> B) l : forall n, map f (remove_nth n l) = remove_nth n (map f l).
Proof. induction l as [|x l IH]; intros [|n]; cbn; try reflexivity. now rewrite IH. Qed.
Lemma epick_loop d rl atoms l : forall prev, emap (fun p => (estates (fst p), option_map t_item (snd p))) (tpick_loop d rl atoms prev l) = pick_loop d rl atoms (option_map t_item prev) (estates l).
Proof.
  induction l as [|[v s] l IH]; intros prev; [reflexivity|]. cbn [tpick_loop estates map fst snd pick_loop]. fold (estates l). change (st_condition (estate s)) with (ts_condition s). change (st_stack (estate s)) with (map t_item (ts_stack s)). rewrite nth_error_map. destruct (holds _ _).
  - destruct (nth_error (ts_stack s) d) as [i|]; [|reflexivity]. cbn [option_map]. unfold tconsistent. destruct (consistent_names _ _); [|reflexivity]. specialize (IH (Some i)). cbn [option_map] in IH. rewrite <- IH.
    destruct (tpick_loop d rl atoms (Some i) l) as [[r res]| |]; cbn [obind emap fst snd]; try reflexivity. cbn [estates map fst snd]. destruct rl; [rewrite estate_with, map_remove|]; reflexivity.
  - rewrite <- IH. destruct (tpick_loop d rl atoms prev l) as [[r res]| |]; reflexivity.
Qed.
Lemma epick d rl vs : emap (fun p => (t_item (fst p), evs (snd p))) (tv_pick_roll d rl vs) = vs_pick_roll d rl (evs vs).
Proof.
  unfold tv_pick_roll, vs_pick_roll, evs. cbn [vs_states vs_atoms]. pose proof (epick_loop d rl (tv_atoms vs) (tv_states vs) None) as H. cbn [option_map] in H. rewrite <- H.
  destruct (tpick_loop _ _ _ _ _) as [[r [i|]]| |]; reflexivity.
Qed.
Lemma eposition x l : position (fun i => String.eqb x (it_name (t_item i))) l = position (fun i => String.eqb x (it_name i)) (map t_item l).
Proof. induction l as [|i l IH]; [reflexivity|]. cbn [position map]. destruct (String.eqb _ _); [reflexivity|]. now rewrite IH. Qed.
Lemma position_nth {A} (f : A -> bool) l : forall d, position f l = Some d -> exists x, nth_error l d = Some x.
Proof. induction l as [|a l IH]; intros d E; cbn [position] in E; [discriminate|]. destruct (f a); [injection E as <-; now exists a|]. destruct (position f l) as [n|]; [|discriminate]. injection E as <-. now apply IH. Qed.
Lemma efind_loop x atoms l : forall prev, emap (option_map fst) (tfind_loop x atoms prev l) = find_loop x atoms (option_map fst prev) (estates l).
Proof.
  induction l as [|[v s] l IH]; intros prev; [reflexivity|]. cbn [tfind_loop estates map fst snd find_loop]. fold (estates l). change (st_condition (estate s)) with (ts_condition s). change (st_stack (estate s)) with (map t_item (ts_stack s)). rewrite <- eposition. destruct (holds _ _); [|apply IH].
  destruct (position _ (ts_stack s)) as [d|] eqn:P; [|reflexivity]. destruct (position_nth _ _ _ P) as (i & ->). destruct prev as [[d' j]|]; cbn [option_map fst]; [destruct (Nat.eqb d' d); [|reflexivity]|]; apply (IH (Some (d, i))).
Qed.
Lemma efind x vs : emap fst (tv_find x vs) = vs_find x (evs vs).
Proof.
  unfold tv_find, vs_find, evs. cbn [vs_states vs_atoms]. pose proof (efind_loop x (tv_atoms vs) (tv_states vs) None) as H. cbn [option_map] in H. rewrite <- H. destruct (tfind_loop _ _ _ _) as [[[d i]|]| |]; reflexivity.
Qed.
Lemma epop_n n : forall g acc, emap (fun p => (map t_item (fst p), egen (snd p))) (tpop_n n g acc) = pop_n n (egen g) (map t_item acc).
Proof.
  induction n as [|n IH]; intros g acc; [reflexivity|]. cbn [tpop_n pop_n]. rewrite <- epop. destruct (tg_pop false g) as [[i g1]| |]; cbn [obind emap fst snd]; try reflexivity. apply (IH g1 (i :: acc)).
Qed.
Lemma eindex ins k : emap t_item (tindex_item ins k) = index_item (map t_item ins) k.
Proof. unfold tindex_item, index_item. rewrite nth_error_map. now destruct (nth_error ins k). Qed.
Notation eouts := (emap (fun p => (map t_item (fst p), egen (snd p)))).
Lemma enamed c order ins names : forall idx g, eouts (tnamed_outputs c order ins idx names g) = named_outputs c order (map t_item ins) idx names (egen g).
Proof.
  induction names as [|name r IH]; intros idx g; [reflexivity|]. cbn [tnamed_outputs named_outputs tmake_ident make_ident egen g_vs g_n]. fold (egen (TGen (tg_vs g) (S (tg_n g)))). specialize (IH (S idx) (TGen (tg_vs g) (S (tg_n g)))).
  change (Gen (evs (tg_vs g)) (S (tg_n g))) with (egen (TGen (tg_vs g) (S (tg_n g)))). rewrite <- IH.
  destruct (String.eqb name "__").
  - destruct (opcode_retains_input c).
    + rewrite <- (eindex ins 0). destruct (tindex_item ins 0) as [j| |]; cbn [obind emap]; try reflexivity. destruct (tnamed_outputs _ _ _ _ _ _) as [[is g2]| |]; reflexivity.
    + destruct order as [ord|]; [|reflexivity]. destruct (nth_error ord idx) as [k|]; [|reflexivity]. rewrite <- (eindex ins k). destruct (tindex_item ins k) as [j| |]; cbn [obind emap]; try reflexivity. destruct (tnamed_outputs _ _ _ _ _ _) as [[is g2]| |]; reflexivity.
  - cbn [obind]. destruct (tnamed_outputs _ _ _ _ _ _) as [[is g2]| |]; reflexivity.
Qed.
Lemma eordered ins order : forall g, eouts (tordered_outputs ins order g) = ordered_outputs (map t_item ins) order (egen g).
Proof.
  induction order as [|k r IH]; intros g; [reflexivity|]. cbn [tordered_outputs ordered_outputs tmake_ident make_ident]. rewrite <- (eindex ins k). destruct (tindex_item ins k) as [j| |]; cbn [obind emap]; try reflexivity.
  change (Gen (g_vs (egen g)) (S (g_n (egen g)))) with (egen (TGen (tg_vs g) (S (tg_n g)))). rewrite <- IH. destruct (tordered_outputs _ _ _) as [[is g2]| |]; reflexivity.
Qed.
Lemma efresh c ins n : forall g, eouts (tfresh_outputs c ins n g) = fresh_outputs c (map t_item ins) n (egen g).
Proof.
  induction n as [|n IH]; intros g; [reflexivity|]. cbn [tfresh_outputs fresh_outputs tmake_ident make_ident]. change (Gen (g_vs (egen g)) (S (g_n (egen g)))) with (egen (TGen (tg_vs g) (S (tg_n g)))). rewrite <- IH.
  destruct (opcode_retains_input c).
  - rewrite <- (eindex ins 0). destruct (tindex_item ins 0) as [j| |]; cbn [obind emap]; try reflexivity. destruct (tfresh_outputs _ _ _ _) as [[is g2]| |]; reflexivity.
  - cbn [obind]. destruct (tfresh_outputs _ _ _ _) as [[is g2]| |]; reflexivity.
Qed.
Lemma emade c o b ins g : eouts (tmade_outputs c o b ins g) = made_outputs c o b (map t_item ins) (egen g).
Proof.
  unfold tmade_outputs, made_outputs. destruct (os_outputs o) as [names|]; [destruct (Nat.eqb _ _); [apply enamed|reflexivity]|]. destruct (b_output_order b); [apply eordered|apply efresh].
Qed.
Lemma epushes l : forall g, egen (fold_left (fun g i => tg_push false i g) l g) = fold_left (fun g i => g_push false i g) (map t_item l) (egen g).
Proof. induction l as [|i l IH]; intros g; [reflexivity|]. cbn [fold_left map]. now rewrite IH, egen_push. Qed.
Lemma eother c o g : emap eres (trun_other_opcode c o g) = run_other_opcode c o (egen g).
Proof.
  unfold trun_other_opcode, run_other_opcode. destruct (opcode_behavior c) as [b| |]; cbn [obind]; try reflexivity. pose proof (epop_n (length (b_input_types b)) g []) as H. cbn [map] in H. rewrite <- H. clear H.
  destruct (tpop_n _ _ _) as [[ins g1]| |]; cbn [obind emap fst snd]; try reflexivity. rewrite map_length.
  match goal with |- context[obind ?x _] => destruct x as [[]| |]; cbn [obind emap]; try reflexivity end. change (match os_outputs o with Some names => _ | None => _ end) with (made_outputs c o b (map t_item ins) (egen g1)).
  rewrite <- emade. destruct (tmade_outputs _ _ _ _ _) as [[pushed g2]| |]; cbn [obind emap fst snd]; try reflexivity. destruct (func_exists c); [|reflexivity]. unfold eres. cbn [emap fst snd]. now rewrite epushes, map_map.
Qed.
Lemma edepth o g x z : emap eres (trun_depth_of o g x z) = run_depth_of o (egen g) x z.
Proof.
  unfold trun_depth_of, run_depth_of. change (g_vs (egen g)) with (evs (tg_vs g)). rewrite <- efind. destruct (tv_find x (tg_vs g)) as [[d i]| |]; cbn [obind emap fst]; try reflexivity.
  destruct (os_outputs o) as [[|n [|]]|]; cbn [tmake_ident make_ident]; (destruct (integer_new (Z.of_nat d)) as [k| |]; cbn [obind emap]; try reflexivity; unfold eres; cbn [fst snd]; now rewrite egen_push).
Qed.
Lemma eupdate o i : emap t_item (tupdate_item_name o i) = update_item_name o (t_item i).
Proof. unfold tupdate_item_name. now destruct (update_item_name o (t_item i)). Qed.
Section Erase.
Variable type_of : string -> option rty.
Lemma eopcode o g : emap eres (trun_opcode type_of o g) = run_opcode o (egen g).
Proof.
  unfold trun_opcode, run_opcode. destruct (opcode_by_name (os_ident o)) as [c|].
  - assert (D : (trun_opcode type_of o g = trun_other_opcode c o g -> True) /\ (c = OP_TOALTSTACK \/ c = OP_FROMALTSTACK \/ c = OP_PICK \/ c = OP_ROLL \/ (forall A (a b d e : A), match c with OP_TOALTSTACK => a | OP_FROMALTSTACK => b | OP_PICK | OP_ROLL => d | _ => e end = e))) by (split; [auto|destruct c; auto 6]).
    destruct D as (_ & [->|[->|[->|[->|D]]]]).
    + rewrite <- epop. destruct (tg_pop false g) as [[i g1]| |]; cbn [obind emap fst snd]; try reflexivity. destruct (verify_item_name o (t_item i)) as [[]| |]; cbn [obind emap]; try reflexivity. rewrite <- eupdate. destruct (tupdate_item_name o i) as [i'| |]; cbn [obind emap]; try reflexivity. unfold eres. cbn [fst snd]. now rewrite egen_push.
    + rewrite <- epop. destruct (tg_pop true g) as [[i g1]| |]; cbn [obind emap fst snd]; try reflexivity. destruct (verify_item_name o (t_item i)) as [[]| |]; cbn [obind emap]; try reflexivity. rewrite <- eupdate. destruct (tupdate_item_name o i) as [i'| |]; cbn [obind emap]; try reflexivity. unfold eres. cbn [fst snd]. now rewrite egen_push.
    + rewrite <- epop. destruct (tg_pop false g) as [[i g1]| |]; cbn [obind emap fst snd]; try reflexivity. destruct (verify_item_name o (t_item i)) as [[]| |]; cbn [obind emap]; try reflexivity.
      match goal with |- context[obind ?x _] => destruct x as [d| |]; cbn [obind emap]; try reflexivity end. change (g_vs (egen g1)) with (evs (tg_vs g1)). rewrite <- epick. destruct (tv_pick_roll _ _ _) as [[j vs]| |]; cbn [obind emap fst snd]; try reflexivity.
      rewrite <- eupdate. destruct (tupdate_item_name o j) as [j'| |]; cbn [obind emap]; try reflexivity. unfold eres. cbn [fst snd]. now rewrite egen_push.
    + rewrite <- epop. destruct (tg_pop false g) as [[i g1]| |]; cbn [obind emap fst snd]; try reflexivity. destruct (verify_item_name o (t_item i)) as [[]| |]; cbn [obind emap]; try reflexivity.
      match goal with |- context[obind ?x _] => destruct x as [d| |]; cbn [obind emap]; try reflexivity end. change (g_vs (egen g1)) with (evs (tg_vs g1)). rewrite <- epick. destruct (tv_pick_roll _ _ _) as [[j vs]| |]; cbn [obind emap fst snd]; try reflexivity.
      rewrite <- eupdate. destruct (tupdate_item_name o j) as [j'| |]; cbn [obind emap]; try reflexivity. unfold eres. cbn [fst snd]. now rewrite egen_push.
    + destruct c; try (apply eother); exfalso; specialize (D bool true true true false); discriminate.
  - unfold trun_opcode_function, run_opcode_function. destruct (String.eqb (os_ident o) "depth_of"). { destruct (os_inputs o) as [[|[x|] [|]]|]; try reflexivity. apply edepth. }
    destruct (String.eqb (os_ident o) "depth_of_offset"). { destruct (os_inputs o) as [[|[x|] [|[|t z] [|]]]|]; try reflexivity. apply edepth. }
    destruct (String.eqb (os_ident o) "transmute"); [|reflexivity]. assert (T : forall x t, emap eres (trun_transmute type_of o g x t) = do _ <- vs_find x (g_vs (egen g)); Ok (egen g, [])).
    { intros x t. unfold trun_transmute. change (g_vs (egen g)) with (evs (tg_vs g)). rewrite <- efind. destruct (tv_find x (tg_vs g)) as [[d i]| |]; reflexivity. }
    destruct (os_inputs o) as [[|[x|] [|t [|]]]|]; try reflexivity. destruct (os_outputs o) as [[|out [|]]|]; try apply T. destruct (String.eqb out x); [apply T|reflexivity].
Qed.
Lemma trun_if_eq i t e es en g : trun_stmt type_of (SScriptIf i t e es en) g =
    do r0 <- trun_opcode type_of i g;
    match if_variable i with
    | None => Err (EMsg 24)
    | Some var =>
      do r1 <- trun_stmts type_of t (twith_atom (Atom var true) (fst (fst r0)));
      do r2 <- match e with Some o => trun_opcode type_of o (fst (fst r1)) | None => Ok (fst (fst r1), [], []) end;
      do r3 <- trun_stmts type_of es (twith_atom (Atom var false) (TGen (tg_vs (fst (fst r0))) (tg_n (fst (fst r2)))));
      do r4 <- trun_opcode type_of en (fst (fst r3));
      Ok (TGen (TVStates (tmerge_states (tv_atoms (tg_vs (fst (fst r0))) ++ [Atom var true]) (tv_atoms (tg_vs (fst (fst r0))) ++ [Atom var false]) (tv_states (tg_vs (fst (fst r2)))) (tv_states (tg_vs (fst (fst r4))))) (tv_atoms (tg_vs (fst (fst r0))))) (tg_n (fst (fst r4))),
          snd (fst r0) ++ snd (fst r1) ++ snd (fst r2) ++ snd (fst r3) ++ snd (fst r4), snd r0 ++ snd r1 ++ snd r2 ++ snd r3 ++ snd r4)
    end.
Proof. reflexivity. Qed.
Lemma trun_stmts_cons s l g : trun_stmts type_of (s :: l) g = do r1 <- trun_stmt type_of s g; do r2 <- trun_stmts type_of l (fst (fst r1)); Ok (fst (fst r2), snd (fst r1) ++ snd (fst r2), snd r1 ++ snd r2).
Proof. reflexivity. Qed.
Lemma emerge a b l : forall l', estates (tmerge_states a b l l') = merge_states a b (estates l) (estates l').
Proof.
  induction l as [|[v s] l IH]; intros [|[w t] l']; try reflexivity. cbn [tmerge_states estates map fst snd merge_states]. fold (estates l) (estates l') (estates (tmerge_states a b l l')). rewrite IH. f_equal. f_equal.
  change (st_condition (estate t)) with (ts_condition t). now destruct (_ && _).
Qed.
Lemma estmt s : forall g, emap eres (trun_stmt type_of s g) = run_stmt s (egen g).
Proof.
  induction s as [e n|o|b|a b|i t e es en IHt IHe] using stmt_ind'; intros g; try reflexivity.
  - cbn [trun_stmt run_stmt]. unfold trun_push, run_push. destruct n as [n|]; cbn [tmake_ident make_ident emap]; unfold eres; cbn [fst snd]; now rewrite egen_push.
  - apply eopcode.
  - assert (HL : forall l, Forall (fun s => forall g, emap eres (trun_stmt type_of s g) = run_stmt s (egen g)) l -> forall g, emap eres (trun_stmts type_of l g) = run_stmts l (egen g)).
    { induction 1 as [|s l Hs _ IH]; intros g1; [reflexivity|]. rewrite trun_stmts_cons, run_stmts_cons, <- Hs. destruct (trun_stmt type_of s g1) as [[[g2 c2] l2]| |]; cbn [obind emap]; try reflexivity. unfold eres at 2. cbn [fst snd]. rewrite <- IH.
      destruct (trun_stmts type_of l g2) as [[[g3 c3] l3]| |]; reflexivity. }
    rewrite trun_if_eq, run_if_eq. rewrite <- eopcode. destruct (trun_opcode type_of i g) as [[[g0 c0] l0]| |]; cbn [obind emap]; try reflexivity. unfold eres at 2. cbn [fst snd]. destruct (if_variable i) as [var|]; [|reflexivity].
    change (with_atom (Atom var true) (egen g0)) with (egen (twith_atom (Atom var true) g0)). rewrite <- (HL t IHt). destruct (trun_stmts type_of t _) as [[[g1 c1] l1]| |]; cbn [obind emap]; try reflexivity. unfold eres at 2. cbn [fst snd].
    assert (H2 : match e with Some o => run_opcode o (egen g1) | None => Ok (egen g1, []) end = emap eres (match e with Some o => trun_opcode type_of o g1 | None => Ok (g1, [], []) end)) by (destruct e; [now rewrite eopcode|reflexivity]).
    rewrite H2. destruct (match e with Some o => trun_opcode type_of o g1 | None => Ok (g1, [], []) end) as [[[g2 c2] l2]| |]; cbn [obind emap]; try reflexivity. unfold eres at 2. cbn [fst snd].
    change (with_atom (Atom var false) (Gen (g_vs (egen g0)) (g_n (egen g2)))) with (egen (twith_atom (Atom var false) (TGen (tg_vs g0) (tg_n g2)))). rewrite <- (HL es IHe). destruct (trun_stmts type_of es _) as [[[g3 c3] l3]| |]; cbn [obind emap]; try reflexivity. unfold eres at 2. cbn [fst snd].
    rewrite <- eopcode. destruct (trun_opcode type_of en g3) as [[[g4 c4] l4]| |]; cbn [obind emap]; try reflexivity. unfold eres. cbn [fst snd]. do 2 f_equal. unfold egen, evs. cbn [tg_vs tv_states tv_atoms tg_n g_vs g_n vs_states vs_atoms]. now rewrite emerge.
Qed.
Lemma estmts l : forall g, emap eres (trun_stmts type_of l g) = run_stmts l (egen g).
Proof.
  induction l as [|s l IH]; intros g; [reflexivity|]. rewrite trun_stmts_cons, run_stmts_cons, <- estmt. destruct (trun_stmt type_of s g) as [[[g2 c2] l2]| |]; cbn [obind emap]; try reflexivity. unfold eres at 2. cbn [fst snd]. rewrite <- IH.
  destruct (trun_stmts type_of l g2) as [[[g3 c3] l3]| |]; reflexivity.
Qed.
Lemma epush_variant v i l : emap estates (tpush_variant v i l) = push_variant v (t_item i) (estates l).
Proof.
  induction l as [|[w s] l IH]; [reflexivity|]. cbn [tpush_variant estates map fst snd push_variant]. fold (estates l). destruct (String.eqb w v); [reflexivity|]. rewrite <- IH. destruct (tpush_variant v i l); reflexivity.
Qed.
Lemma epush_variants en vs i : forall l, emap estates (tpush_variants en vs i l) = push_variants en vs (t_item i) (estates l).
Proof.
  induction vs as [|v vs IH]; intros l; [reflexivity|]. cbn [tpush_variants push_variants]. rewrite <- epush_variant. destruct (tpush_variant v i l); cbn [obind emap]; try reflexivity. destruct en; [apply IH|reflexivity].
Qed.
Lemma einputs en ins : forall vs, emap evs (trun_inputs en ins vs) = run_inputs en ins (evs vs).
Proof.
  induction ins as [|i r IH]; intros vs; [reflexivity|]. cbn [trun_inputs run_inputs]. destruct (in_variants i) as [names|].
  - change (vs_states (evs vs)) with (estates (tv_states vs)). rewrite <- (epush_variants en names (TItem (Item (in_ident i) false None) (in_ident i))). destruct (tpush_variants _ _ _ _) as [l| |]; cbn [obind emap]; try reflexivity. apply (IH (TVStates l (tv_atoms vs))).
  - cbn [obind]. rewrite IH, evs_push. reflexivity.
Qed.
Lemma einitial m : estates (tinitial_states m) = initial_states m.
Proof. unfold tinitial_states, initial_states. destruct (ms_variants m) as [|p l]; [reflexivity|]. unfold estates. rewrite map_map. apply map_ext. now intros [v q]. Qed.
Lemma escript m tys : emap eres (trun_script type_of m tys) = run_script m.
Proof.
  unfold trun_script, run_script. rewrite <- einitial. change (VStates (estates (tinitial_states m)) []) with (evs (TVStates (tinitial_states m) [])). rewrite <- einputs.
  destruct (trun_inputs _ _ _) as [vs| |]; cbn [obind emap]; try reflexivity. change (Gen (evs vs) 0) with (egen (TGen vs 0)). rewrite <- estmts. destruct (trun_stmts _ _ _) as [[[g c] l]| |]; reflexivity.
Qed.
End Erase.
