(** C39: compile-time stack tracking against the script machine. *)
From Verif Require Import Base BaseLemmas Spec_Encoding Model_Integer Model_ByteArray Model_Opcode Model_Script Model_Behavior Model_Macro Spec_Macro Proofs_Macro Proofs_Macro2 Proofs_Macro5 Proofs_Macro7 Proofs_Macro8.
Local Open Scope string_scope.
Local Open Scope list_scope.
Local Open Scope Z_scope.

(** Every script the macro accepts, every variant, every execution in which the conditionals go a way the variant's predicate
    allows, every values: the op about to run always finds the items it needs, under the names the author declared; recorded
    names are the items' names; a [depth_of] pushes the item's depth; at the end the tracker's stacks are the machine's.
    [coherent]: the variants still possible agree on what is popped, and PICK/ROLL get a number from [depth_of];
    [script_along] also asks for balanced branches. *)
Theorem C39_tracks (m : macro_script) (g : gen) (code : list emitted) (v : string) (p : predicate) (sigma : valuation) (main : list ritem) :
  run_script m = Ok (g, code) -> script_clean m -> script_along coherent m -> In (v, p) (variants m) -> satisfies sigma p ->
  map r_label main = rev (map Some (variant_pushes m v)) ->
  exists s, In (v, s) (vs_states (g_vs g)) /\ follows sigma code main s.
Proof. apply script_tracked. Qed.
Print Assumptions C39_tracks.
(** Scripts with one variant: nothing to agree on. *)
Theorem C39_single_variant (m : macro_script) (g : gen) (code : list emitted) (v : string) (p : predicate) (sigma : valuation) (main : list ritem) :
  run_script m = Ok (g, code) -> script_clean m -> variants m = [(v, p)] -> script_along known_depth m -> satisfies sigma p ->
  map r_label main = rev (map Some (variant_pushes m v)) ->
  exists s, vs_states (g_vs g) = [(v, s)] /\ follows sigma code main s.
Proof.
  intros E Hc Hv Ha Hs Hm. assert (Hr := E). unfold run_script in Hr. destruct (run_inputs (has_variants m) (ms_inputs m) (VStates (initial_states m) [])) as [vs| |] eqn:Ei; try discriminate. cbn [obind] in Hr.
  destruct (initial_variants m) as (Hf & _). destruct (run_inputs_spec _ _ _ _ Ei eq_refl) as (_ & B & _ & _); [cbn [vs_states]; rewrite Hf; apply Hc|]. cbn [vs_states] in B. rewrite Hf, Hv in B. cbn [map fst] in B.
  assert (Hl : length (vs_states vs) = 1%nat) by (rewrite <- (map_length fst), B; reflexivity).
  destruct (C39_tracks m g code v p sigma main E Hc) as (s & Hin & Hfol); [|rewrite Hv; now left|exact Hs|exact Hm|].
  - intros vs' Ei'. rewrite Ei in Ei'. injection Ei' as <-. apply single_coherent; [cbn [g_vs]; rewrite Hl; lia|now apply Ha|eauto].
  - exists s. split; [|exact Hfol]. pose proof (kept_length _ _ (stmts_kept _ _ _ _ Hr)) as K. cbn [g_vs] in K. rewrite Hl in K. destruct (vs_states (g_vs g)) as [|x [|]]; try discriminate K. destruct Hin as [->|[]]. reflexivity.
Qed.
Print Assumptions C39_single_variant.
(** Any number of variants, without PICK, ROLL and renaming on the way to or from the alt stack: the macro's own checks are enough,
    only the branches must be balanced. *)
Theorem C39_variants_static (m : macro_script) (g : gen) (code : list emitted) (v : string) (p : predicate) (sigma : valuation) (main : list ritem) :
  run_script m = Ok (g, code) -> script_clean m -> Forall static (body (ms_stmts m)) -> script_along (fun _ _ => True) m -> In (v, p) (variants m) -> satisfies sigma p ->
  map r_label main = rev (map Some (variant_pushes m v)) ->
  exists s, In (v, s) (vs_states (g_vs g)) /\ follows sigma code main s.
Proof.
  intros E Hc Hst Ha. apply C39_tracks; [exact E|exact Hc|]. intros vs Ei. apply static_coherent; [|exact Hst|now apply Ha|].
  - eapply run_inputs_plain; [exact Ei|apply initial_plain].
  - unfold run_script in E. rewrite Ei in E. cbn [obind] in E. eauto.
Qed.
Print Assumptions C39_variants_static.
(** What is generated: one op per written statement except [transmute], in order; each is the opcode or push written (a number for [depth_of]). *)
Theorem C39_emits (m : macro_script) (g : gen) (code : list emitted) :
  run_script m = Ok (g, code) -> map em_src code = filter emits (body (ms_stmts m)) /\ Forall op_right code.
Proof.
  unfold run_script. intros E. destruct (run_inputs (has_variants m) (ms_inputs m) (VStates (initial_states m) [])) as [vs| |] eqn:Ei; try discriminate. cbn [obind] in E. split; [eapply stmts_emits; eassumption|eapply stmts_right; eassumption].
Qed.
Print Assumptions C39_emits.

(** ** Examples *)
Definition opc (s : string) (i : list opcode_input) (o : list string) : stmt := SOpcode (OpcodeStmt s (match i with [] => None | _ => Some i end) (match o with [] => None | _ => Some o end)).
Definition inp (s : string) : script_input := ScriptInput s None.
Definition ifc (s : string) (t e : list stmt) : stmt :=
  SScriptIf (OpcodeStmt "OP_IF" (Some [InIdent s]) None) t (Some (OpcodeStmt "OP_ELSE" None None)) e (OpcodeStmt "OP_ENDIF" None None).
Definition push1 : stmt := SPush (OPushInt 1) None.
Definition ritems (l : list (string * list Z)) : list ritem := map (fun p => RItem (Some (fst p)) (snd p)) l.

(** Two variants that have a different number of inputs, a conditional, depth_of/PICK, the alt stack. *)
Definition ex_script : macro_script :=
  MacroScript "ex" [("A", [[Atom "c" true]]); ("B", [[Atom "c" false]])]
    [inp "x"; ScriptInput "y" (Some ["A"]); inp "c"]
    [ ifc "c" [ opc "OP_CAT" [InIdent "x"; InIdent "y"] ["z"] ]
              [ opc "OP_SHA256" [InIdent "x"] ["z"] ];
      opc "OP_TOALTSTACK" [InIdent "z"] [];
      SPush (OPushInt 1) (Some "k");
      opc "OP_FROMALTSTACK" [InIdent "z"] ["w"];
      opc "depth_of" [InIdent "k"] [];
      opc "OP_PICK" [] ["k2"];
      opc "OP_EQUAL" [InIdent "w"; InIdent "k2"] [] ].
Ltac along_auto :=
  repeat match goal with
  | |- all_along _ _ _ => cbn [all_along]
  | |- _ /\ _ => split
  | |- True => exact Logic.I
  | |- along _ (SScriptIf _ _ _ _ _) _ => apply along_if
  | |- along _ _ _ => cbn [along]
  | |- forall g1 c1, run_stmt _ _ = Ok (g1, c1) -> _ => let E := fresh "E" in intros ? ? E; vm_compute in E; injection E as <- <-
  | |- forall g1 c1 v, run_opcode _ _ = Ok (g1, c1) -> if_variable _ = Some v -> _ => let E := fresh "E" in let F := fresh "F" in intros ? ? ? E F; vm_compute in E; injection E as <- <-; vm_compute in F; injection F as <-
  | |- forall g1 c1 g2 c2, run_stmts _ _ = Ok (g1, c1) -> _ = Ok (g2, c2) -> _ => let E := fresh "E" in let F := fresh "F" in intros ? ? ? ? E F; vm_compute in E; injection E as <- <-; vm_compute in F; injection F as <- <-
  | |- forall g3 c3, run_stmts _ _ = Ok (g3, c3) -> balanced _ _ _ _ => let E := fresh "E" in intros ? ? E; vm_compute in E; injection E as <- <-
  end.
Ltac possible_auto :=
  repeat match goal with
  | H : possible _ _ |- _ => let v := fresh "v" in let Hi := fresh "Hi" in let Hh := fresh "Hh" in destruct H as (v & Hi & Hh); cbn [with_atom g_vs vs_states vs_atoms app In] in Hi
  | H : _ \/ _ |- _ => destruct H
  | H : False |- _ => destruct H
  | H : (_, _) = (_, _) |- _ => injection H as <- <-
  | H : holds _ _ = true |- _ => first [discriminate H | clear H]
  end.
Ltac agree_at_auto :=
  let s := fresh "s" in let t := fresh "t" in let i := fresh "i" in let j := fresh "j" in let Hi := fresh "Hi" in let Hj := fresh "Hj" in
  intros s t i j ? ? Hi Hj; possible_auto; cbn [the_stack st_stack st_alt nth_error] in Hi, Hj; first [discriminate Hi | discriminate Hj | injection Hi as <-; injection Hj as <-; split; reflexivity].
Ltac coherent_auto :=
  match goal with
  | |- coherent _ _ => split; [unfold agree; match goal with |- context [opcode_by_name ?s] => let r := eval vm_compute in (opcode_by_name s) in change (opcode_by_name s) with r end; cbv beta iota|
                              let H := fresh "H" in intros [H|H]; vm_compute in H; try discriminate H; clear H; intros s i ? H; possible_auto; cbn [st_stack nth_error] in H; injection H as <-; eexists; reflexivity]
  end;
  match goal with
  | |- True => exact Logic.I
  | |- forall b k, _ = Ok b -> _ -> _ => let E := fresh "E" in let Hk := fresh "Hk" in intros b k E Hk; vm_compute in E; injection E as <-; cbn [b_input_types length] in Hk; destruct k as [|[|[|k]]]; try (exfalso; lia); agree_at_auto
  | |- agree_at _ _ _ => agree_at_auto
  | |- _ /\ _ => split; [agree_at_auto|]; let Hi := fresh "Hi" in let Hd := fresh "Hd" in intros s i d ? Hi Hd; possible_auto; cbn [st_stack nth_error] in Hi; injection Hi as <-; cbn [it_integer] in Hd; injection Hd as <-; agree_at_auto
  end.
Ltac balanced_auto := intros k v s w t H1 H2 H3 H4; cbn [g_vs vs_states] in H1, H2; destruct k as [|[|k]]; cbn [nth_error] in H1, H2; try (destruct k; discriminate H1); injection H1 as <- <-; injection H2 as <- <-; first [discriminate H3|discriminate H4|split; repeat constructor].
Ltac clean_auto :=
  repeat match goal with
  | |- Forall _ (_ :: _) => constructor
  | |- Forall _ [] => constructor
  | |- proper (SScriptIf _ _ _ _ _) => apply PrIf; [left; reflexivity| |intros ? H; injection H as <-; reflexivity|discriminate| |reflexivity]
  | |- proper (SOpcode _) => apply PrOp; unfold is_bracket, is_if; cbn [os_ident]; intuition discriminate
  | |- proper _ => constructor
  end.
Ltac clean_one :=
  match goal with
  | |- clean (SOpcode _) => cbn [clean os_ident os_inputs os_outputs]; repeat split;
      first [ let l := fresh in let x := fresh in let E := fresh in let Hin := fresh in intros l x E Hin; first [discriminate E | injection E as <-; cbn [In] in Hin; repeat (destruct Hin as [Hin|Hin]; [first [discriminate Hin | injection Hin as <-; reflexivity | subst x; reflexivity]|]); destruct Hin]
            | let E := fresh in intros E; first [discriminate E | discriminate | left; reflexivity | right; eexists; split; [reflexivity|discriminate] | do 2 eexists; split; [reflexivity|discriminate] | cbn [In] in E; repeat (destruct E as [E|E]; [discriminate E|]); destruct E ] ]
  | |- clean (SPush _ (Some _)) => let x := fresh in let E := fresh in intros x E; injection E as <-; split; [reflexivity|discriminate]
  | |- clean (SPush _ None) => discriminate
  end.
Ltac script_clean_auto :=
  repeat split; [cbn [ms_stmts]; clean_auto|unfold body; cbn [ms_stmts concat map written app]; repeat (apply Forall_cons; [clean_one|]); apply Forall_nil|repeat (apply Forall_cons; [split; [reflexivity|first [reflexivity|discriminate|(intros _; reflexivity)]]|]); apply Forall_nil|cbn; repeat constructor; cbn; intuition discriminate].
Lemma ex_clean : script_clean ex_script.
Proof. unfold ex_script, opc, ifc, push1, inp. script_clean_auto. Qed.
Lemma ex_coherent : script_along coherent ex_script.
Proof.
  intros vs E. vm_compute in E. injection E as <-. cbv [ms_stmts ex_script opc ifc push1 inp]. along_auto. all: try coherent_auto. all: try balanced_auto.
Qed.

(** The machine runs what is generated for [ex_script]; both variants. *)
Ltac stp t := eapply ReStep; [t|]; cbn [relabel out_names in_names em_src os_outputs rev app map fst snd String.eqb Ascii.eqb Bool.eqb r_value r_label].
Ltac op t := apply MsOp; [intros [H|[H|H]]; discriminate H|reflexivity|t].
Ltac if_step := eapply MsIf; [reflexivity|reflexivity|cbn [r_label]; let n := fresh in let E := fresh in intros n E; injection E as <-; reflexivity].
Example C39_nonvacuous :
  script_clean ex_script /\ script_along coherent ex_script /\ (exists g code, run_script ex_script = Ok (g, code) /\ length code = 11%nat /\ map fst (vs_states (g_vs g)) = ["A"; "B"]) /\
  (exists sigma, satisfies sigma [[Atom "c" true]]) /\ variant_pushes ex_script "A" = ["x"; "y"; "c"] /\ variant_pushes ex_script "B" = ["x"; "c"].
Proof.
  split; [exact ex_clean|]. split; [exact ex_coherent|]. split; [do 2 eexists; split; [vm_compute; reflexivity|split; reflexivity]|]. split; [|split; reflexivity]. exists (fun _ => true). right. eexists. split; [left; reflexivity|]. intros a [<-|[]]. reflexivity.
Qed.
(** An execution of variant B. *)
Example C39_nonvacuous_run : exists g code c, run_script ex_script = Ok (g, code) /\
  reaches (fun _ => false) (code, Config (ritems [("c", []); ("x", [7])]) [] []) ([], c) /\ map r_label (c_main c) = [None; Some "k"].
Proof.
  do 3 eexists. split; [vm_compute; reflexivity|]. split.
  - cbn [ritems map fst snd]. stp if_step. stp ltac:(apply MsSkipped; [intros [H|[H|H]]; discriminate H|reflexivity]). stp ltac:(apply MsElse; reflexivity).
    stp ltac:(op ltac:(apply (StCompute _ OP_SHA256 1 1 [RItem (Some "x") [7]] [RItem None [8]] []); [reflexivity|reflexivity|reflexivity|reflexivity|repeat constructor])).
    stp ltac:(apply MsEndIf; reflexivity). stp ltac:(op ltac:(apply StToAlt; reflexivity)). stp ltac:(op ltac:(apply (StPush _ (OPushInt 1) [1]); reflexivity)). stp ltac:(op ltac:(apply StFromAlt; reflexivity)).
    stp ltac:(op ltac:(apply (StNumber _ 1 [1]); reflexivity)). stp ltac:(op ltac:(apply (StPick _ _ 1%nat); reflexivity)).
    stp ltac:(op ltac:(eapply (StCompute _ OP_EQUAL 2 1 [_; _] [RItem None [1]]); [reflexivity|reflexivity|reflexivity|reflexivity|repeat constructor])).
    apply ReRefl.
  - reflexivity.
Qed.
Example C39_single_nonvacuous : exists m g code v p, script_clean m /\ variants m = [(v, p)] /\ script_along known_depth m /\ run_script m = Ok (g, code) /\ length code = 4%nat.
Proof.
  exists (MacroScript "m" [] [inp "a"; inp "b"] [opc "depth_of" [InIdent "a"] []; opc "OP_ROLL" [] []; opc "OP_SWAP" [] []; opc "OP_CAT" [InIdent "a"; InIdent "b"] ["ab"]]). do 4 eexists. unfold opc, inp. split; [script_clean_auto|]. split; [reflexivity|]. split; [|split; [vm_compute; reflexivity|reflexivity]].
  intros vs E. vm_compute in E. injection E as <-. cbv [ms_stmts]. along_auto. all: try (intros [H|H]; vm_compute in H; discriminate H).
  intros _ s i ? H. possible_auto. cbn [st_stack nth_error] in H. injection H as <-. eexists. reflexivity.
Qed.
Example C39_static_nonvacuous : exists m g code, script_clean m /\ Forall static (body (ms_stmts m)) /\ script_along (fun _ _ => True) m /\ length (variants m) = 2%nat /\ run_script m = Ok (g, code) /\ length code = 8%nat.
Proof.
  exists (MacroScript "ex" [("A", [[Atom "c" true]]); ("B", [[Atom "c" false]])] [inp "x"; ScriptInput "y" (Some ["A"]); inp "c"]
    [ ifc "c" [ opc "OP_CAT" [InIdent "x"; InIdent "y"] ["z"]; opc "OP_TOALTSTACK" [] [] ] [ opc "OP_TOALTSTACK" [InIdent "x"] []; push1 ];
      opc "OP_DEPTH" [] ["n"] ]). do 2 eexists. unfold opc, inp, ifc, push1. split; [script_clean_auto|]. split.
  - unfold body. cbn [ms_stmts concat map written app]. repeat (apply Forall_cons; [cbn [static os_ident os_outputs In]; try exact Logic.I; split; intuition discriminate|]). apply Forall_nil.
  - split; [|split; [reflexivity|split; [vm_compute; reflexivity|reflexivity]]]. intros vs E. vm_compute in E. injection E as <-. cbv [ms_stmts]. along_auto. all: try exact Logic.I. balanced_auto.
Qed.

(** ** Where the tracker is wrong *)
Ltac mislead main0 sigma0 := do 4 eexists; exists sigma0, (ritems main0); split; [vm_compute; reflexivity|]; split; [first [left; reflexivity|right; left; reflexivity]|]; split.
Ltac refute c tac := let s := fresh "s" in let Hin := fresh "Hin" in let H := fresh "H" in intros s Hin H; cbn [g_vs vs_states In] in Hin; repeat (destruct Hin as [Hin|Hin]; [first [discriminate Hin|injection Hin as <-]|]); try (destruct Hin); cbn [ritems map fst snd] in H;
  specialize (H [] c); cbn beta iota in H; refine (_ (H _)); [clear; cbn; intros (H1 & H2 & H3); first [discriminate H2|discriminate H3|discriminate H1]|clear; tac].
(** PICK of an item that is not the last one with a number that does not come from [depth_of]: the tracker assumes depth 0. *)
Theorem C39_unknown_depth_refuted : exists m, script_clean m /\ length (variants m) = 1%nat /\ misled m.
Proof.
  exists (MacroScript "m" [] [inp "a"; inp "b"] [push1; opc "OP_PICK" [] []]). unfold opc, inp, push1. split; [script_clean_auto|]. split; [reflexivity|].
  mislead [("b", [3]); ("a", [2])] (fun _ : string => true); [now left|]. split; [reflexivity|].
  refute (Config [RItem (Some "a") [2]; RItem (Some "b") [3]; RItem (Some "a") [2]] [] []) ltac:(stp ltac:(op ltac:(apply (StPush _ (OPushInt 1) [1]); reflexivity)); stp ltac:(op ltac:(apply (StPick _ _ 1%nat); reflexivity)); apply ReRefl).
Qed.
Print Assumptions C39_unknown_depth_refuted.
(** [depth_of_offset] pushes the depth plus the offset, but the tracker remembers the depth without the offset. *)
Theorem C39_depth_offset_refuted : exists m, length (variants m) = 1%nat /\ ms_variants m = [] /\ script_along known_depth m /\ misled m.
Proof.
  exists (MacroScript "m" [] [inp "a"; inp "b"] [opc "depth_of_offset" [InIdent "b"; InExpr "1" 1] []; opc "OP_PICK" [] []]). unfold opc, inp. split; [reflexivity|]. split; [reflexivity|]. split.
  - intros vs E. vm_compute in E. injection E as <-. cbv [ms_stmts]. along_auto. all: try (intros [H|H]; vm_compute in H; discriminate H). intros _ s i ? H. possible_auto. cbn [st_stack nth_error] in H. injection H as <-. eexists. reflexivity.
  - mislead [("b", [3]); ("a", [2])] (fun _ : string => true); [now left|]. split; [reflexivity|].
    refute (Config [RItem (Some "a") [2]; RItem (Some "b") [3]; RItem (Some "a") [2]] [] []) ltac:(stp ltac:(op ltac:(apply (StNumber _ 1 [1]); reflexivity)); stp ltac:(op ltac:(apply (StPick _ _ 1%nat); reflexivity)); apply ReRefl).
Qed.
Print Assumptions C39_depth_offset_refuted.
(** OP_SIZE without output names: the size gets the name of the array. *)
Theorem C39_size_refuted : exists m, length (variants m) = 1%nat /\ body (ms_stmts m) = [opc "OP_SIZE" [] []] /\ misled m.
Proof.
  exists (MacroScript "m" [] [inp "a"] [opc "OP_SIZE" [] []]). unfold opc, inp. split; [reflexivity|]. split; [reflexivity|].
  mislead [("a", [2; 3])] (fun _ : string => true); [now left|]. split; [reflexivity|].
  refute (Config [RItem None [2]; RItem (Some "a") [2; 3]] [] []) ltac:(stp ltac:(op ltac:(apply (StSize _ _ [2]); reflexivity)); apply ReRefl).
Qed.
Print Assumptions C39_size_refuted.
(** Branches that leave different stacks are not detected. *)
Theorem C39_unbalanced_refuted : exists m, script_clean m /\ length (variants m) = 1%nat /\ Forall static (body (ms_stmts m)) /\ misled m.
Proof.
  exists (MacroScript "m" [] [inp "x"; inp "c"] [ifc "c" [opc "OP_DROP" [] []] []]). unfold opc, inp, ifc. split; [script_clean_auto|]. split; [reflexivity|]. split.
  - unfold body. cbn [ms_stmts concat map written app]. repeat (apply Forall_cons; [cbn [static os_ident os_outputs In]; try exact Logic.I; split; intuition discriminate|]). apply Forall_nil.
  - mislead [("c", [1]); ("x", [2])] (fun _ : string => true); [now left|]. split; [reflexivity|].
    refute (Config [] [] []) ltac:(stp if_step; stp ltac:(op ltac:(eapply (StShuffle _ OP_DROP); reflexivity)); stp ltac:(apply MsElse; reflexivity); stp ltac:(apply MsEndIf; reflexivity); apply ReRefl).
Qed.
Print Assumptions C39_unbalanced_refuted.
(** Variants for which [depth_of] gave different numbers: PICK uses the number of whichever variant the hash map yields last. *)
Theorem C39_variant_depth_refuted : exists m, script_clean m /\ script_along known_depth m /\ misled m.
Proof.
  exists (MacroScript "m" [("B", [[Atom "c" false]]); ("A", [[Atom "c" true]])] [inp "x"; inp "q"; inp "c"]
    [ifc "c" [opc "depth_of" [InIdent "x"] []] [opc "depth_of" [InIdent "q"] []]; opc "OP_PICK" [] []]). unfold opc, inp, ifc. split; [script_clean_auto|]. split.
  - intros vs E. vm_compute in E. injection E as <-. cbv [ms_stmts]. along_auto. all: try (intros [H|H]; vm_compute in H; discriminate H). all: try balanced_auto. intros _ s i ? H. possible_auto; cbn [st_stack nth_error] in H; injection H as <-; eexists; reflexivity.
  - mislead [("c", @nil Z); ("q", [3]); ("x", [2])] (fun _ : string => false).
    + right. eexists. split; [left; reflexivity|]. intros a [<-|[]]. reflexivity.
    + split; [reflexivity|].
      refute (Config [RItem (Some "q") [3]; RItem (Some "q") [3]; RItem (Some "x") [2]] [] []) ltac:(stp if_step; stp ltac:(apply MsSkipped; [intros [H|[H|H]]; discriminate H|reflexivity]); stp ltac:(apply MsElse; reflexivity);
        stp ltac:(op ltac:(apply (StNumber _ 0 []); reflexivity)); stp ltac:(apply MsEndIf; reflexivity); stp ltac:(op ltac:(apply (StPick _ _ 0%nat); reflexivity)); apply ReRefl).
Qed.
Print Assumptions C39_variant_depth_refuted.
(** Naming an unnamed item on its way to the alt stack: the tracker no longer notices that variants disagree on the name. *)
Theorem C39_alt_name_refuted : exists m, script_clean m /\ script_along known_depth m /\ misled m.
Proof.
  exists (MacroScript "m" [("B", [[Atom "c" false]]); ("A", [[Atom "c" true]])] [inp "c"]
    [ifc "c" [push1; opc "OP_TOALTSTACK" [] ["p"]] [push1; opc "OP_TOALTSTACK" [] ["q"]]; opc "OP_FROMALTSTACK" [] []]). unfold opc, inp, ifc, push1. split; [script_clean_auto|]. split.
  - intros vs E. vm_compute in E. injection E as <-. cbv [ms_stmts]. along_auto. all: try (intros [H|H]; vm_compute in H; discriminate H). all: try balanced_auto.
  - mislead [("c", @nil Z)] (fun _ : string => false).
    + right. eexists. split; [left; reflexivity|]. intros a [<-|[]]. reflexivity.
    + split; [reflexivity|].
      refute (Config [RItem (Some "q") [1]] [] []) ltac:(stp if_step; do 2 (stp ltac:(apply MsSkipped; [intros [H|[H|H]]; discriminate H|reflexivity])); stp ltac:(apply MsElse; reflexivity);
        stp ltac:(op ltac:(apply (StPush _ (OPushInt 1) [1]); reflexivity)); stp ltac:(op ltac:(apply StToAlt; reflexivity)); stp ltac:(apply MsEndIf; reflexivity); stp ltac:(op ltac:(apply StFromAlt; reflexivity)); apply ReRefl).
Qed.
Print Assumptions C39_alt_name_refuted.
(** OP_DEPTH without an output name makes the macro panic; OP_NOTIF is always refused. *)
Theorem C39_depth_panics_refuted (i : option (list opcode_input)) (g : gen) : i = None \/ i = Some [] -> run_opcode (OpcodeStmt "OP_DEPTH" i None) g = Panic.
Proof. intros [->| ->]; reflexivity. Qed.
Print Assumptions C39_depth_panics_refuted.
Theorem C39_notif_refused (o : opcode_stmt) (t es : list stmt) (e : option opcode_stmt) (en : opcode_stmt) (g : gen) : os_ident o = "OP_NOTIF" -> exists x, run_stmt (SScriptIf o t e es en) g = Err x.
Proof.
  intros H. rewrite run_if_eq. unfold run_opcode. rewrite H. change (opcode_by_name "OP_NOTIF") with (Some OP_NOTIF). cbv beta iota. unfold run_other_opcode. cbn [opcode_behavior opcode_is_disabled obind b_input_types length pop_n].
  destruct (os_inputs o) as [[|]|]; cbn; destruct (os_outputs o) as [[|]|]; cbn; eauto.
Qed.
Print Assumptions C39_notif_refused.
(** A script without variants gets an input struct whose fields are all pushed; an input marked with an empty variant list is
    pushed but not tracked.  Marking it with the struct's own name makes the macro panic. *)
Theorem C39_empty_variants_refuted : exists m, length (variants m) = 1%nat /\ ms_variants m = [] /\ body (ms_stmts m) = [] /\ misled m.
Proof.
  exists (MacroScript "m" [] [inp "a"; ScriptInput "b" (Some [])] []). unfold inp. split; [reflexivity|]. split; [reflexivity|]. split; [reflexivity|].
  mislead [("b", [3]); ("a", [2])] (fun _ : string => true); [now left|]. split; [reflexivity|].
  refute (Config [RItem (Some "b") [3]; RItem (Some "a") [2]] [] []) ltac:(apply ReRefl).
Qed.
Print Assumptions C39_empty_variants_refuted.
Theorem C39_struct_variant_panics_refuted (name : string) (x : string) (rest : list string) (stmts : list stmt) :
  run_script (MacroScript name [] [ScriptInput x (Some (name :: rest))] stmts) = Panic.
Proof. unfold run_script, has_variants, initial_states. cbn [ms_variants ms_inputs ms_name run_inputs in_variants in_ident push_variants vs_states push_variant]. rewrite String.eqb_refl. reflexivity. Qed.
Print Assumptions C39_struct_variant_panics_refuted.
