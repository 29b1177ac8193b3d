(** C57: the conditions are needed, and are met by a script with variants, a conditional, the alt stack and OP_PICK. *)
From Verif Require Import Base BaseLemmas Spec_Encoding Model_Encoding Model_ByteArray Proofs_ByteArray Model_Opcode Model_Script Model_Code Model_Behavior Model_Macro Spec_Script Proofs_Script Spec_Macro Spec_Network Proofs_Network2 Proofs_Network3
  Spec_MacroRun Proofs_MacroRun Spec_Behavior Proofs_Behavior Model_Mock Model_MacroType Spec_MacroType Proofs_MacroType Proofs_MacroType2 Proofs_MacroType7 Proofs_MacroType8 Prop_OffChain Prop_Macro2 Prop_MacroRun Prop_MacroType.
Local Open Scope string_scope.
Local Open Scope list_scope.
Local Open Scope Z_scope.

(** ** The conditions are needed *)
Lemma minimal_10 : ~ minimal_num [1; 0].
Proof. intros [H|(i & last & H & K)]; [discriminate H|]. destruct i as [|a [|b i]]; try discriminate H; [|destruct i; discriminate H]. injection H as <- <-. destruct K as [K|(j & p & K & P)]; [now apply K|]. destruct j as [|c j]; [injection K as <-; lia|destruct j; discriminate K]. Qed.
Definition opn (s : string) : stmt := SOpcode (OpcodeStmt s None None).
Ltac code_step := eapply ViStep; [vm_compute; reflexivity|vm_compute; reflexivity|].
Ltac chunks := repeat (apply Forall2_cons || apply Forall2_nil || apply Forall_cons || apply Forall_nil); cbn [fst snd].
Ltac no_number := let c := fresh in let H := fresh in intros H; specialize (H OP_1ADD eq_refl); destruct H as (ts & rs & vs & r & (ps & qs & sub & M & -> & _) & St & F); injection M as <- <-; cbn [map inst] in F; inversion F as [|? ? ? ? F1 F2]; subst; inversion F2; subst; cbn [opcode_eqb m_main rev app] in St; injection St as <- <-; exact (minimal_10 F1).
Ltac accepted_in H := let c := fresh in let l := fresh in let R := fresh in let C := fresh in destruct H as (c & l & R & C); vm_compute in R; first [discriminate R|injection R as <- <- <-]; vm_compute in C; first [discriminate C|injection C as <-].
Lemma talong_if' type_of i t e es en g G :
  (tcoherent i g G /\
    forall g0 G0 var, accepted (trun_opcode type_of i g) G g0 G0 -> if_variable i = Some var ->
      all_talong type_of t (twith_atom (Atom var true) g0) G0 /\
      forall g1 G1 g2 G2, accepted (trun_stmts type_of t (twith_atom (Atom var true) g0)) G0 g1 G1 ->
        accepted (match e with Some o => trun_opcode type_of o g1 | None => Ok (g1, [], []) end) G1 g2 G2 ->
        all_talong type_of es (twith_atom (Atom var false) (TGen (tg_vs g0) (tg_n g2))) G2 /\
        forall g3 G3, accepted (trun_stmts type_of es (twith_atom (Atom var false) (TGen (tg_vs g0) (tg_n g2)))) G2 g3 G3 -> tbalanced var (tv_atoms (tg_vs g0)) g1 g3 G3) -> talong type_of (SScriptIf i t e es en) g G.
Proof. intros H. exact H. Qed.
Ltac talong_auto :=
  repeat match goal with
  | |- all_talong _ _ _ _ => cbn [all_talong]
  | |- _ /\ _ => split
  | |- True => exact Logic.I
  | |- talong _ (SScriptIf _ _ _ _ _) _ _ => apply talong_if'
  | |- talong _ _ _ _ => cbn [talong]
  | |- forall g1 G1, accepted (trun_stmt _ _ _) _ _ _ -> _ => let H := fresh "H" in intros ? ? H; accepted_in H
  | |- forall g1 c1 v, accepted (trun_opcode _ _ _) _ _ _ -> if_variable _ = Some v -> _ => let H := fresh "H" in let F := fresh "F" in intros ? ? ? H F; accepted_in H; vm_compute in F; injection F as <-
  | |- forall g1 c1 g2 c2, accepted (trun_stmts _ _ _) _ _ _ -> accepted _ _ _ _ -> _ => let H := fresh "H" in let F := fresh "F" in intros ? ? ? ? H F; accepted_in H; accepted_in F
  | |- forall g3 c3, accepted (trun_stmts _ _ _) _ _ _ -> tbalanced _ _ _ _ _ => let H := fresh "H" in intros ? ? H; accepted_in H
  end.
Ltac tpossible_auto :=
  repeat match goal with
  | H : tpossible _ _ |- _ => let v := fresh "v" in let Hi := fresh "Hi" in let Hh := fresh "Hh" in destruct H as (v & Hi & Hh); cbn [twith_atom tg_vs tv_states tv_atoms app In] in Hi
  | H : _ \/ _ |- _ => destruct H
  | H : False |- _ => destruct H
  | H : (_, _) = (_, _) |- _ => injection H as <- <-
  | H : holds _ _ = true |- _ => first [discriminate H | clear H]
  end.
Ltac fits_auto := split; [do 2 eexists; split; [cbn; reflexivity|split; [cbn; reflexivity|let v := fresh in let Hv := fresh in intros v Hv; first [exact Hv|exact Logic.I]]]|let k := fresh in let Hk := fresh in intros k Hk; first [discriminate Hk|exact Hk]].
Ltac tagree_at_auto :=
  let s := fresh "s" in let t := fresh "t" in let i := fresh "i" in let j := fresh "j" in let Hi := fresh "Hi" in let Hj := fresh "Hj" in
  intros s t i j ? ? Hi Hj; tpossible_auto; cbn [tthe_stack ts_stack ts_alt nth_error Z.to_nat Pos.to_nat Pos.iter_op Nat.add] in Hi, Hj; first [discriminate Hi | discriminate Hj | injection Hi as <-; injection Hj as <-; fits_auto].
Ltac tknown_auto :=
  split; [|split];
  [ let H := fresh "H" in intros [H|H]; vm_compute in H; try discriminate H; clear H; let s := fresh in let i := fresh in intros s i ? H; tpossible_auto; cbn [ts_stack nth_error] in H; first [discriminate H|injection H as <-; eexists; reflexivity]
  | let H := fresh "H" in intros H; vm_compute in H; try discriminate H; clear H; first [left; do 2 eexists; split; [reflexivity|discriminate] | right; let s := fresh in let i := fresh in intros s i ? H; tpossible_auto; cbn [ts_stack nth_error] in H; injection H as <-; reflexivity]
  | let H := fresh "H" in intros H; vm_compute in H; try discriminate H; let Q := fresh in let I := fresh in intros ? ? ? Q I; injection Q as <-; cbn [In] in I; intuition congruence ].
Ltac tcoherent_auto :=
  match goal with
  | |- tcoherent _ _ _ => split; [unfold tagree; match goal with |- context [opcode_by_name ?s] => let r := eval vm_compute in (opcode_by_name s) in change (opcode_by_name s) with r end; cbv beta iota|tknown_auto]
  end;
  match goal with
  | |- True => exact Logic.I
  | |- forall b k, _ = Ok b -> _ -> _ => let E := fresh "E" in let Hk := fresh "Hk" in let b := fresh "b" in let k := fresh "k" in intros b k E Hk; vm_compute in E; injection E as <-; cbn [b_input_types length] in Hk; destruct k as [|[|[|k]]]; try (exfalso; lia); tagree_at_auto
  | |- tagree_at _ _ _ _ => tagree_at_auto
  | |- _ /\ _ => split; [tagree_at_auto|]; let Hi := fresh "Hi" in let Hd := fresh "Hd" in let s := fresh in let i := fresh in let d := fresh in intros s i d ? Hi Hd; tpossible_auto; cbn [ts_stack nth_error] in Hi; injection Hi as <-; cbn [it_integer t_item] in Hd; first [discriminate Hd|injection Hd as <-; tagree_at_auto]
  end.
Ltac tbalanced_auto := let k := fresh in let H1 := fresh in let H2 := fresh in let H3 := fresh in let H4 := fresh in intros k ? ? ? ? H1 H2 H3 H4; cbn [tg_vs tv_states] in H1, H2; destruct k as [|[|k]]; cbn [nth_error] in H1, H2; try (destruct k; discriminate H1); try discriminate H1; injection H1 as <- <-; injection H2 as <- <-; first [discriminate H3|discriminate H4|cbn [ts_stack ts_alt]; split; repeat (apply Forall2_nil || apply Forall2_cons); fits_auto].
Ltac script_talong_auto := let vs := fresh in let H := fresh in let H' := fresh in intros vs ? H H'; vm_compute in H; injection H as <-; vm_compute in H'; injection H' as <-; cbn [ms_stmts]; talong_auto; try tcoherent_auto; try tbalanced_auto.
Ltac chunk_auto := first [apply CkEmpty|apply (CkSmall 1); lia|apply (CkExec _); lia|apply (CkDirect 2 _); [lia|reflexivity]].
Ltac pushes_auto := repeat (apply Forall_cons || apply Forall_nil); cbn [pushes em_op op_ok]; try exact Logic.I; unfold Spec_Integer.script_int; change (2 ^ 31) with 2147483648; try split; try exact Logic.I; try lia; try (split; [|split]; try exact Logic.I); try (repeat constructor; lia).
Lemma means_1 : means (OPushInt 1) (Push [1]).
Proof. apply MInt; [repeat constructor; lia|right; exists [], 1; split; [reflexivity|left; discriminate]|reflexivity]. Qed.
Lemma means_0 : means (OPushInt 0) (Push []).
Proof. apply MInt; [constructor|now left|reflexivity]. Qed.
Ltac means_auto := cbn [op_of em_op]; match goal with |- means (OCode ?c) (Exec _) => change (means (OCode c) (Exec (opcode_u8 c))); apply MExec; right; cbn [opcode_u8]; lia | |- means (OPushInt 1) _ => exact means_1 | |- means (OPushArray ?a ?f) _ => exact (MPush a f) end.
Ltac codes_auto := chunks; (split; [chunk_auto|means_auto]).
Ltac variants_auto := unfold variants_ok; cbn; repeat constructor; cbn; intuition discriminate.
Ltac no_if := intros (before & e & rest & z & H & _ & _ & _ & (Q & _)); cbv [opc push1] in H; do 6 (destruct before as [|? before]; [injection H as <- _; discriminate Q|]; injection H as _ H; try (destruct before; discriminate H)).
Ltac ill sigma0 v0 p0 values0 l0 l1 := do 4 eexists; exists sigma0, v0, p0, values0; eexists; exists ex_env, l0, l1; do 4 eexists;
  split; [vm_compute; reflexivity|]; split; [reflexivity|]; split; [vm_compute; reflexivity|]; split; [cbn [ms_stmts]; clean_auto|]; split; [variants_auto|].
Ltac split1 := match goal with |- ?a :: ?c :: ?r = _ => exact (eq_refl ([a] ++ c :: r)) end.
Ltac split2 := match goal with |- ?a :: ?b :: ?c :: ?r = _ => exact (eq_refl ([a; b] ++ c :: r)) end.
Ltac split5 := match goal with |- ?a :: ?b :: ?c :: ?d :: ?e :: ?x :: ?r = _ => exact (eq_refl ([a; b; c; d; e] ++ x :: r)) end.
Ltac ill2 t := split; [pushes_auto|]; split; [vm_compute; reflexivity|]; split; [split; [reflexivity|chunks; chunk_auto]|]; split; [codes_auto|]; split; [t; apply ViHere|].
Theorem C57_shadowing_refuted : exists m tys, script_talong (fun _ => None) m tys /\ ill_typed (fun _ => None) m tys.
Proof.
  exists (MacroScript "m" [] [inp "a"] [SPush (OPushInt 1) (Some "a"); opn "OP_DROP"; opn "OP_1ADD"]), [RBytes]. unfold inp, opn. split; [script_talong_auto|].
  ill (fun _ : string => true) "m" (@nil (list atom)) [[1; 0]] [([0x51], Push [1]); ([0x75], Exec 0x75); ([0x8b], Exec 0x8b)] [([0x8b], Exec 0x8b)].
  split; [left; reflexivity|]. split; [left; reflexivity|]. split; [cbn; repeat constructor|]. ill2 ltac:(do 2 code_step). split; [no_if|]. split; [split2|]. split; [codes_auto|]. split; [reflexivity|]. no_number.
Qed.
Print Assumptions C57_shadowing_refuted.
(** [transmute] to a smaller type is a promise of the author's that nothing checks. *)
Definition int_text (s : string) : option rty := if String.eqb s "Integer" then Some RInt else None.
Theorem C57_transmute_refuted : exists m tys, script_talong int_text m tys /\ ill_typed int_text m tys.
Proof.
  exists (MacroScript "m" [] [inp "a"] [opc "transmute" [InIdent "a"; InExpr "Integer" 0] []; opn "OP_1ADD"]), [RBytes]. unfold inp, opn, opc. split; [script_talong_auto|].
  ill (fun _ : string => true) "m" (@nil (list atom)) [[1; 0]] [([0x8b], Exec 0x8b)] [([0x8b], Exec 0x8b)].
  split; [left; reflexivity|]. split; [left; reflexivity|]. split; [cbn; repeat constructor|]. ill2 ltac:(do 0 code_step). split; [no_if|]. split; [match goal with |- ?c :: ?r = _ => exact (eq_refl ([] ++ c :: r)) end|]. split; [codes_auto|]. split; [reflexivity|]. no_number.
Qed.
Print Assumptions C57_transmute_refuted.
(** OP_PICK with a number the macro does not know: it assumes the topmost item. *)
Theorem C57_unknown_depth_refuted : exists m tys, (forall g code lines, trun_script (fun _ => None) m tys = Ok (g, code, lines) -> never_lowers [] lines) /\ ill_typed (fun _ => None) m tys.
Proof.
  exists (MacroScript "m" [] [inp "a"; inp "b"] [push1; opn "OP_PICK"; opn "OP_1ADD"]), [RBytes; RInt]. unfold inp, opn, push1. split; [intros ? ? ? H; vm_compute in H; injection H as <- <- <-|].
  { apply C57_bound_once. cbn [flat_map bound app]. repeat constructor; cbn [In]; intuition discriminate. }
  ill (fun _ : string => true) "m" (@nil (list atom)) [[1; 0]; [1]] [([0x51], Push [1]); ([0x79], Exec 0x79); ([0x8b], Exec 0x8b)] [([0x8b], Exec 0x8b)].
  split; [left; reflexivity|]. split; [left; reflexivity|]. split; [cbn; repeat (apply Forall2_cons || apply Forall2_nil); cbn; try exact Logic.I; right; first [reflexivity|exists [], 1; split; [reflexivity|left; discriminate]]|]. ill2 ltac:(do 2 code_step). split; [no_if|]. split; [split2|]. split; [codes_auto|]. split; [reflexivity|]. no_number.
Qed.
Print Assumptions C57_unknown_depth_refuted.
(** Branches that leave items of different types: the macro keeps those of the else-branch. *)
Theorem C57_branches_refuted : exists m tys, (forall g code lines, trun_script (fun _ => None) m tys = Ok (g, code, lines) -> never_lowers [] lines) /\ ill_typed (fun _ => None) m tys.
Proof.
  exists (MacroScript "m" [] [inp "c"] [ifc "c" [SPush (OPushArray (BA [1; 0] None FPlain None) true) None] [SPush (OPushInt 1) None]; opn "OP_1ADD"]), [RBool]. unfold inp, opn, push1, ifc. split; [intros ? ? ? H; vm_compute in H; injection H as <- <- <-|].
  { apply C57_bound_once. cbn [flat_map bound app]. repeat constructor; cbn [In]; intuition discriminate. }
  ill (fun _ : string => true) "m" (@nil (list atom)) [[1]] [([0x63], Exec 0x63); ([0x02; 1; 0], Push [1; 0]); ([0x67], Exec 0x67); ([0x51], Push [1]); ([0x68], Exec 0x68); ([0x8b], Exec 0x8b)] [([0x8b], Exec 0x8b)].
  split; [left; reflexivity|]. split; [left; reflexivity|]. split; [cbn; repeat (apply Forall2_cons || apply Forall2_nil); cbn; try exact Logic.I; right; first [reflexivity|exists [], 1; split; [reflexivity|left; discriminate]]|]. ill2 ltac:(do 5 code_step).
  split.
  { intros (before & e & rest & z & H & V & _ & Cz & (Q & _ & o & x & w & r & Ho & Hx & Hm & Ht)). destruct before as [|e0 before].
    - assert (Lz : length (fst z) = 6%nat). { apply Forall2_len in Cz. cbn [app] in H. rewrite <- H in Cz. symmetry. exact Cz. }
      inversion V; subst; [|match goal with V' : visits _ (_, _) z |- _ => clear -V' Lz; exfalso; assert (Q : forall a b, visits ex_env a b -> (length (fst b) <= length (fst a))%nat) by (induction 1; cbn [fst length] in *; lia); apply Q in V'; cbn [fst length] in V'; lia end].
      cbn [snd m_main rev app] in Hm. injection Hm as <- <-. now apply Ht.
    - injection H as _ H. do 5 (destruct before as [|? before]; [injection H as <- _; discriminate Q|]; injection H as _ H; try (destruct before; discriminate H)). } split; [split5|]. split; [codes_auto|]. split; [reflexivity|]. no_number.
Qed.
Print Assumptions C57_branches_refuted.

(** Non-trivial instance: two variants, a conditional, the alt stack, depth_of/OP_PICK; variant B executed. *)
Definition ty_script : macro_script :=
  MacroScript "ex" [("A", [[Atom "c" true]]); ("B", [[Atom "c" false]])]
    [inp "x"; ScriptInput "y" (Some ["A"]); inp "c"]
    [ ifc "c" [ opc "OP_CAT" [InIdent "x"; InIdent "y"] ["z"] ] [ opc "OP_SHA256" [InIdent "x"] ["z"] ];
      opc "OP_TOALTSTACK" [InIdent "z"] []; SPush (OPushInt 1) (Some "k"); opc "OP_FROMALTSTACK" [InIdent "z"] ["w"];
      opc "depth_of" [InIdent "k"] []; opc "OP_PICK" [] ["k2"]; opc "OP_SPLIT" [InIdent "w"; InIdent "k2"] ["l"; "r"] ].
Definition ty_instrs : list (list Z * instr) := map (fun b => ([b], if b =? 0x51 then Push [1] else Exec b)) [0x63; 0x7e; 0x67; 0xa8; 0x68; 0x6b; 0x51; 0x6c; 0x51; 0x79; 0x7f].
Definition ty_values : list (string * op) := [("x", OPushArray (BA [7] None FPlain None) true); ("c", OPushBool false)].
Example C57_nonvacuous : exists g code lines G unlock lock s,
  trun_script (fun _ => None) ty_script [RBytes; RBytes; RBool] = Ok (g, code, lines) /\ length lines = 12%nat /\ check_lines [] lines = Some G /\ never_lowers [] lines /\ Forall proper (ms_stmts ty_script) /\ variants_ok ty_script /\
  script_talong (fun _ => None) ty_script [RBytes; RBytes; RBool] /\ In ("B", [[Atom "c" false]]) (variants ty_script) /\ satisfies (fun _ => false) [[Atom "c" false]] /\
  map fst ty_values = variant_pushes ty_script "B" /\ map (fun x => push_type (snd x)) ty_values = map Some (variant_types ty_script [RBytes; RBytes; RBool] "B") /\ Forall push_op (map snd ty_values) /\ script_ser_ops (script_from_ops (map snd ty_values)) = Ok unlock /\
  Forall pushes code /\ script_ser_ops (script_from_ops (map op_of code)) = Ok lock /\ executes ex_env (ba_data unlock) [] [[]; [7]] /\ executes ex_env (ba_data lock) [[]; [7]] [repeat 5 31; [5]; [1]] /\
  In ("B", s) (tv_states (tg_vs g)) /\ map (fun i => lookup G (t_ident i)) (ts_stack s) = [Some RBytes; Some RBytes; Some RInt].
Proof.
  do 7 eexists. split; [vm_compute; reflexivity|]. split; [reflexivity|]. split; [vm_compute; reflexivity|]. split; [apply C57_bound_once; cbn [flat_map bound app]; repeat constructor; cbn [In]; intuition discriminate|].
  split; [cbv [ty_script ms_stmts opc ifc]; clean_auto|]. split; [variants_auto|]. split; [cbv [ty_script opc ifc inp]; script_talong_auto|]. split; [right; left; reflexivity|]. split; [right; eexists; split; [left; reflexivity|]; intros a [<-|[]]; reflexivity|].
  split; [reflexivity|]. split; [reflexivity|]. split; [cbn [map snd ty_values]; chunks; (split; [|exact Logic.I]); cbn [op_ok ba_data]; try exact Logic.I; split; [repeat constructor; lia|vm_compute; reflexivity]|]. split; [vm_compute; reflexivity|]. split; [pushes_auto|]. split; [vm_compute; reflexivity|]. split; [|split; [|split]].
  - exists [([0x57], Push [7]); ([0], Push [])]. eexists. split; [split; [reflexivity|chunks; [apply (CkSmall 7); lia|apply CkEmpty]]|]. split; [vm_compute; discriminate|]. split; [vm_compute; discriminate|]. split; [vm_compute; reflexivity|]. split; reflexivity.
  - exists ty_instrs. eexists. split; [split; [reflexivity|unfold ty_instrs; cbn [map]; chunks; cbn [Z.eqb Pos.eqb]; chunk_auto]|]. split; [vm_compute; discriminate|]. split; [vm_compute; discriminate|]. split; [vm_compute; reflexivity|]. split; reflexivity.
  - right. left. reflexivity.
  - vm_compute. reflexivity.
Qed.
Print Assumptions C57_nonvacuous.
(** rustc rejects [ex_script], which compares bytes with a number. *)
Example C57_rejects : exists g code lines, trun_script (fun _ => None) ex_script [RBytes; RBytes; RBool] = Ok (g, code, lines) /\ check_lines [] lines = None.
Proof. do 3 eexists. split; vm_compute; reflexivity. Qed.
