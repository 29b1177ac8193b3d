(** C54: what the parts of a Rust function annotated with [#[script(..)]] mean. *)
From Coq Require Import Ascii.
From Verif Require Import Base BaseLemmas Model_Opcode Model_Script Model_Behavior Model_Macro Spec_Macro Proofs_Macro Model_MacroParse Spec_MacroParse Proofs_MacroParse Proofs_MacroParse2 Prop_Macro2.
Local Open Scope string_scope.
Local Open Scope list_scope.
Local Open Scope Z_scope.

(** Which bodies are accepted: exactly those built from the allowed statements in which every block's own IF, ELSE and ENDIF are balanced. *)
Theorem C54_body_accepted (R : rust) (b : list rust_stmt) : (exists t, parse_stmts R b = Ok t) <-> acceptable_block b.
Proof. apply accepts_iff. Qed.
Print Assumptions C54_body_accepted.

(** What an accepted body means, statement by statement, conditionals grouped. *)
Theorem C54_body (R : rust) (b : list rust_stmt) (t : list stmt) : block R b t -> parse_stmts R b = Ok t.
Proof. apply parses. Qed.
Print Assumptions C54_body.

(** The attribute's arguments: accepted iff of the documented form, and then they mean what they say. *)
Theorem C54_attribute (R : rust) (l : list nested_meta) (a : macro_attrs) : rust_ok R -> (parse_attrs R l = Ok a <-> macro_args R l a).
Proof. intros H. now apply attrs_iff. Qed.
Print Assumptions C54_attribute.

(** The parameters of the function. *)
Theorem C54_parameters (l : list fn_arg) (ins : list ir_input) (ty : string) : parse_script_inputs l = Ok (ins, ty) <-> parameters l ty ins.
Proof. apply parameters_iff. Qed.
Print Assumptions C54_parameters.

(** The whole function: accepted iff the attribute, the parameters and the body are and no return type is given; the parts are those. *)
Theorem C54_function (R : rust) (args : list nested_meta) (f : item_fn) (s : ir_script) : rust_ok R ->
  (parse_script R args f = Ok s <->
   exists a docs ins ty t, macro_args R args a /\ fn_returns f = false /\ parse_docs R (fn_attrs f) (ma_struct a) (map fst (ma_variants a)) = Ok docs /\
   parameters (fn_inputs f) ty ins /\ parse_stmts R (fn_block f) = Ok t /\
   s = IrScript (ma_struct a) (ma_crate a) (ma_variants a) ty ins t docs (match ma_debug a with Some b => b | None => true end) f).
Proof.
  intros HR. unfold parse_script. split.
  - destruct (parse_attrs R args) as [a| |] eqn:Ea; try discriminate. cbn [obind]. destruct (fn_returns f) eqn:Er; [discriminate|]. destruct (parse_docs R (fn_attrs f) (ma_struct a) (map fst (ma_variants a))) as [docs| |] eqn:Ed; try discriminate. cbn [obind].
    destruct (parse_script_inputs (fn_inputs f)) as [[ins ty]| |] eqn:Ei; try discriminate. cbn [obind]. destruct (parse_stmts R (fn_block f)) as [t| |] eqn:Et; try discriminate. cbn [obind]. intros E. injection E as <-.
    exists a, docs, ins, ty, t. split; [now apply attrs_iff|]. split; [reflexivity|]. split; [exact Ed|]. split; [now apply parameters_iff|]. auto.
  - intros (a & docs & ins & ty & t & Ha & Hr & Hd & Hp & Ht & ->). apply (attrs_iff R HR) in Ha. rewrite Ha. cbn [obind]. rewrite Hr, Hd. cbn [obind]. apply parameters_iff in Hp. rewrite Hp. cbn [obind]. rewrite Ht. reflexivity.
Qed.
Print Assumptions C54_function.
Theorem C54_function_accepted (R : rust) (args : list nested_meta) (f : item_fn) : rust_ok R ->
  ((exists s, parse_script R args f = Ok s) <-> (exists a, macro_args R args a) /\ fn_returns f = false /\ (exists ty ins, parameters (fn_inputs f) ty ins) /\ acceptable_block (fn_block f)).
Proof.
  intros HR. split.
  - intros (s & E). apply (C54_function R args f s HR) in E as (a & docs & ins & ty & t & Ha & Hr & _ & Hp & Ht & _). split; [eauto|]. split; [exact Hr|]. split; [eauto|]. apply (accepts_iff R). eauto.
  - intros ((a & Ha) & Hr & (ty & ins & Hp) & Hb). apply (accepts_iff R) in Hb as (t & Ht). destruct (docs_ok R (fn_attrs f) (ma_struct a) (map fst (ma_variants a))) as (docs & Hd).
    eexists. apply (C54_function R args f _ HR). exists a, docs, ins, ty, t. split; [exact Ha|]. split; [exact Hr|]. split; [exact Hd|]. auto.
Qed.
Print Assumptions C54_function_accepted.

(** Doc comments: lines before "# Name" go nowhere, those after it belong to the struct until the first "## Variant", then to that variant
    until the next one.  Collecting them never fails. *)
Theorem C54_docs (R : rust) (attrs : list attribute) (name : string) (vs : list string) (pre : list (list Z)) (h : list Z) (docs : list (list Z)) (secs : list (string * list Z * list (list Z))) :
  doc_lines attrs = pre ++ h :: docs ++ concat (map (fun '(v, h, ds) => h :: ds) secs) ->
  Forall (fun x => ~ struct_header R name x) pre -> struct_header R name h -> Forall (plain_doc R name vs) docs ->
  Forall (fun '(v, h, ds) => In v vs /\ variant_header R v h /\ Forall (plain_doc R name vs) ds) secs -> NoDup (map (fun x => fst (fst x)) secs) ->
  exists d, parse_docs R attrs name vs = Ok d /\ sd_struct d = docs /\
  (forall v h ds, In (v, h, ds) secs -> lookup v (sd_variants d) = Some ds) /\ (forall v, ~ In v (map (fun x => fst (fst x)) secs) -> lookup v (sd_variants d) = None).
Proof.
  intros El Hpre Hh Hd Hs HN. unfold parse_docs. rewrite docs_lines, El, run_app, before by assumption. cbn [obind docs_run]. unfold parse_doc at 1. apply header_iff in Hh. rewrite Hh. cbn [obind ds_current ds_docs]. rewrite run_app, in_struct by assumption. cbn [obind app].
  destruct (sections R name vs secs Hs docs [] None) as (cur & m & E & Hn & Hin). rewrite E. cbn [obind]. eexists. split; [reflexivity|]. cbn [ds_docs sd_struct sd_variants]. split; [reflexivity|]. split; [now apply Hin|]. intros v Hv. now rewrite Hn.
Qed.
Print Assumptions C54_docs.
Theorem C54_no_docs (R : rust) (attrs : list attribute) (name : string) (vs : list string) :
  Forall (fun x => ~ struct_header R name x) (doc_lines attrs) -> parse_docs R attrs name vs = Ok (ScriptDocs [] []).
Proof. intros H. unfold parse_docs. now rewrite docs_lines, before. Qed.
Print Assumptions C54_no_docs.

(** The only panics are for a crate name that is no identifier and a predicate with non-ASCII characters. *)
Theorem C54_panics (R : rust) (args : list nested_meta) (f : item_fn) : parse_script R args f = Panic ->
  exists x s, In (NMeta (MNameValue (One x) (LStr s))) (tl args) /\ (x = "crate" /\ ident_ok R s = false \/ x <> "crate" /\ x <> "debug" /\ Exists (fun c => 128 <= c) s).
Proof. apply script_panics. Qed.
Print Assumptions C54_panics.

(** Different texts are different names. *)
Theorem C54_names_distinct (s t : list Z) : code_points s -> code_points t -> utf8 s = utf8 t -> s = t.
Proof. apply utf8_inj. Qed.
Print Assumptions C54_names_distinct.

(** From source to script: an accepted function whose conditionals are in the supported form has the ops of its lines, in source order;
    [transmute] lines generate none.  Loops and Rust conditionals are not supported. *)
Theorem C54_source_order (R : rust) (args : list nested_meta) (f : item_fn) (s : ir_script) (t : list stmt) (g : gen) (code : list emitted) :
  parse_script R args f = Ok s -> block R (fn_block f) t -> run_script (macro_of s) = Ok (g, code) ->
  exists ls, lines R (fn_block f) ls /\ (forall ls', lines R (fn_block f) ls' -> ls' = ls) /\ map em_src code = filter emits ls /\ Forall op_right code.
Proof.
  intros Es Hb Er. assert (ir_stmts s = t) as Et.
  { unfold parse_script in Es. destruct (parse_attrs R args); try discriminate. cbn [obind] in Es. destruct (fn_returns f); [discriminate|]. destruct (parse_docs _ _ _ _); try discriminate. cbn [obind] in Es. destruct (parse_script_inputs _) as [[ins ty]| |]; try discriminate. cbn [obind] in Es.
    apply parses in Hb. rewrite Hb in Es. cbn [obind] in Es. injection Es as <-. reflexivity. }
  destruct (C39_emits _ _ _ Er) as (Hsrc & Hop). cbn [macro_of ms_stmts] in Hsrc. rewrite Et in Hsrc.
  assert (Hs : Forall simple (body t)).
  { apply Forall_forall. intros x Hx. destruct (emits x) eqn:Ex; [|destruct x; try discriminate; exact I]. assert (Hin : In x (map em_src code)) by (rewrite Hsrc; apply filter_In; auto). apply in_map_iff in Hin as (e & <- & He). apply (proj1 (Forall_forall _ _) Hop) in He. unfold op_right in He. destruct (em_src e); first [exact I|destruct He]. }
  assert (Hl := proj1 (proj2 (proj2 (stand_lines R))) _ _ Hb Hs). exists (body t). split; [exact Hl|]. split; [|auto]. intros ls' Hl'. symmetry. exact (proj2 (proj2 (line_fun R)) _ _ Hl _ Hl').
Qed.
Print Assumptions C54_source_order.

(** ** Examples *)
Definition rust_alnum (c : Z) : bool := ((48 <=? c) && (c <=? 57)) || ((65 <=? c) && (c <=? 90)) || ((97 <=? c) && (c <=? 122)).
Definition ex_rust : rust := Rust rust_alnum (fun c => c =? 32) (fun s => match s with c :: _ => rust_alnum c | [] => false end) (fun e => match e with EOther t => t | _ => "" end) (fun _ => 1) (fun _ => OPushInt 5).
Definition op0 (x : string) : expr := EPath (One x).
Definition call (x : string) (args : list string) : expr := ECall false (EPath (One x)) (map op0 args).
Definition let1 (x : string) (e : expr) : rust_stmt := StLocal (PIdent x true) (Some e).
Definition doc (s : list Z) : attribute := Attribute (One "doc") (Some (MNameValue (One "doc") (LStr s))).
(** [
    /// about the function
    /// # In
    /// the struct
    /// ## A
    /// the first variant
    #[script(In, A="c", B="!c", crate="abc", debug=false)]
    fn f(p: Params, x: ByteArray, #[variant(A)] y: ByteArray, #[attr] c: bool) {
      OP_IF(c);
        let z = OP_CAT(x, y);
      OP_ELSE;
        { let d = 1; OP_IF(d); OP_ENDIF; }
        let z = OP_SHA256(x);
      OP_ENDIF;
      let k = 5;
      let z = transmute(z, Integer);
      OP_EQUAL(z, k)
    } ] *)
Definition ex_fn : item_fn :=
  ItemFn [doc [32; 97]; Attribute (One "inline") (Some (MPath (One "inline"))); doc [32; 35; 32; 73; 110]; doc [32; 98]; doc [32; 35; 35; 32; 65]; doc [99]; doc [100]] "f" false false
    [Typed [] (PIdent "p" true) "Params"; Typed [] (PIdent "x" true) "ByteArray"; Typed [Attribute (One "variant") (Some (MList (One "variant") [NMeta (MPath (One "A"))]))] (PIdent "y" true) "ByteArray"; Typed [Attribute (One "attr") None] (PIdent "c" true) "bool"]
    [ StSemi (call "OP_IF" ["c"]); let1 "z" (call "OP_CAT" ["x"; "y"]); StSemi (op0 "OP_ELSE"); StExpr (EBlock [let1 "d" (EOther "1"); StSemi (call "OP_IF" ["d"]); StSemi (op0 "OP_ENDIF")]); let1 "z" (call "OP_SHA256" ["x"]); StSemi (op0 "OP_ENDIF");
      let1 "k" (EOther "5"); let1 "z" (call "transmute" ["z"; "Integer"]); StExpr (call "OP_EQUAL" ["z"; "k"]) ].
Definition ex_args : list nested_meta :=
  [NMeta (MPath (One "In")); NMeta (MNameValue (One "A") (LStr [99])); NMeta (MNameValue (One "B") (LStr [33; 99])); NMeta (MNameValue (One "crate") (LStr [97; 98; 99])); NMeta (MNameValue (One "debug") (LBool false))].
Definition oper (x : string) (ins : list string) (outs : list string) : opcode_stmt := OpcodeStmt x (match ins with [] => None | _ => Some (map InIdent ins) end) (match outs with [] => None | _ => Some outs end).
Definition ex_inner : list stmt := [SPush (OPushInt 5) (Some "d"); SScriptIf (oper "OP_IF" ["d"] []) [] None [] (oper "OP_ENDIF" [] [])].
Definition ex_tree : list stmt :=
  [ SScriptIf (oper "OP_IF" ["c"] []) [SOpcode (oper "OP_CAT" ["x"; "y"] ["z"])] (Some (oper "OP_ELSE" [] [])) (ex_inner ++ [SOpcode (oper "OP_SHA256" ["x"] ["z"])]) (oper "OP_ENDIF" [] []);
    SPush (OPushInt 5) (Some "k"); SOpcode (oper "transmute" ["z"; "Integer"] ["z"]); SOpcode (oper "OP_EQUAL" ["z"; "k"] []) ].
Example C54_rust_nonvacuous : rust_ok ex_rust.
Proof. repeat split. Qed.
Example C54_attribute_nonvacuous : macro_args ex_rust ex_args (MacroAttrs "In" (Some "abc") [("A", [[Atom "c" true]]); ("B", [[Atom "c" false]])] (Some false)).
Proof. apply attrs_iff; [exact C54_rust_nonvacuous|reflexivity]. Qed.
Example C54_parameters_nonvacuous : parameters (fn_inputs ex_fn) "Params" [IrInput "x" "ByteArray" None []; IrInput "y" "ByteArray" (Some ["A"]) []; IrInput "c" "bool" None [Attribute (One "attr") None]].
Proof. apply parameters_iff. reflexivity. Qed.
Ltac line_auto := apply opcode_line_iff; reflexivity.
Ltac stand_auto :=
  first [eapply SaLetOpcode; [apply BiName|line_auto]|eapply SaLetPush; [apply BiName|intros []]|apply SaSemi; first [apply SaPush; exact I|apply SaOpcode; line_auto]|apply SaExpr; first [apply SaPush; exact I|apply SaOpcode; line_auto]].
Ltac plain_auto := intros o E; try discriminate E; injection E as <-; unfold is_bracket, is_if; cbn; intuition congruence.
Lemma as_cons R s r a b c : stands R s a -> all_stand R r b -> c = a ++ b -> all_stand R (s :: r) c.
Proof. intros H1 H2 ->. now constructor. Qed.
Example C54_inner_block : block ex_rust [let1 "d" (EOther "1"); StSemi (call "OP_IF" ["d"]); StSemi (op0 "OP_ENDIF")] ex_inner.
Proof.
  apply (BlBlock _ _ [SPush (OPushInt 5) (Some "d"); SOpcode (oper "OP_IF" ["d"] []); SOpcode (oper "OP_ENDIF" [] [])]).
  - repeat (eapply as_cons; [stand_auto| |cbn; reflexivity]). apply AsNil.
  - apply GrPlain; [plain_auto|]. apply (GrIf Outside (oper "OP_IF" ["d"] []) [] [] (oper "OP_ENDIF" [] []) [] []); [discriminate|now left|apply GrEnd|reflexivity|apply GrEnd].
Qed.
Example C54_body_nonvacuous : block ex_rust (fn_block ex_fn) ex_tree.
Proof.
  eapply BlBlock.
  - cbn [fn_block ex_fn]. do 3 (eapply as_cons; [stand_auto| |reflexivity]). eapply as_cons; [apply SaExpr, SaBlock, C54_inner_block| |reflexivity]. repeat (eapply as_cons; [stand_auto| |reflexivity]). apply AsNil.
  - cbn [app map]. apply (GrIfElse Outside (oper "OP_IF" ["c"] []) [SOpcode (oper "OP_CAT" ["x"; "y"] ["z"])] [SOpcode (oper "OP_CAT" ["x"; "y"] ["z"])] (oper "OP_ELSE" [] [])
      (ex_inner ++ [SOpcode (oper "OP_SHA256" ["x"] ["z"])]) (ex_inner ++ [SOpcode (oper "OP_SHA256" ["x"] ["z"])]) (oper "OP_ENDIF" [] [])); [discriminate|now left| |reflexivity| |reflexivity|];
      repeat (apply GrPlain; [plain_auto|]); apply GrEnd.
Qed.
Example C54_function_nonvacuous : exists s g code, parse_script ex_rust ex_args ex_fn = Ok s /\ ir_stmts s = ex_tree /\ ir_debug s = false /\ sd_struct (ir_docs s) = [[32; 98]] /\ lookup "A" (sd_variants (ir_docs s)) = Some [[99]; [100]] /\
  run_script (macro_of s) = Ok (g, code) /\ length code = 10%nat.
Proof.
  destruct (parse_script ex_rust ex_args ex_fn) as [s| |] eqn:E; [|vm_compute in E; discriminate|vm_compute in E; discriminate]. vm_compute in E. injection E as <-.
  eexists _, _, _. split; [reflexivity|]. split; [reflexivity|]. split; [reflexivity|]. split; [reflexivity|]. split; [reflexivity|]. split; [vm_compute; reflexivity|reflexivity].
Qed.
Example C54_docs_nonvacuous : doc_lines (fn_attrs ex_fn) = [[32; 97]] ++ [32; 35; 32; 73; 110] :: [[32; 98]] ++ concat (map (fun '(v, h, ds) => h :: ds) [("A", [32; 35; 35; 32; 65], [[99]; [100]])]) /\
  ~ struct_header ex_rust "In" [32; 97] /\ struct_header ex_rust "In" [32; 35; 32; 73; 110] /\ plain_doc ex_rust "In" ["A"; "B"] [32; 98] /\ variant_header ex_rust "A" [32; 35; 35; 32; 65] /\
  plain_doc ex_rust "In" ["A"; "B"] [99].
Proof.
  assert (HN : forall prefix n x, header n prefix (trim ex_rust x) = false -> ~ is_header ex_rust prefix n x) by (intros prefix n x E H; apply header_iff in H; congruence).
  assert (HP : forall x, header "In" [35; 32] (trim ex_rust x) = false -> header "A" [35; 35; 32] (trim ex_rust x) = false -> header "B" [35; 35; 32] (trim ex_rust x) = false -> plain_doc ex_rust "In" ["A"; "B"] x).
  { intros x H0 H1 H2. split; [now apply HN|]. intros v [<-|[<-|[]]]; now apply HN. }
  split; [reflexivity|]. split; [apply HN; reflexivity|]. split; [apply header_iff; reflexivity|]. split; [apply HP; reflexivity|]. split; [apply header_iff; reflexivity|apply HP; reflexivity].
Qed.
(** Panics do happen. *)
Theorem C54_panic_refuted : exists R args f, rust_ok R /\ parse_script R args f = Panic /\ exists args', parse_script R args' f = Panic /\ args <> args'.
Proof.
  exists ex_rust, [NMeta (MPath (One "In")); NMeta (MNameValue (One "crate") (LStr [32]))], ex_fn. split; [exact C54_rust_nonvacuous|]. split; [reflexivity|].
  exists [NMeta (MPath (One "In")); NMeta (MNameValue (One "A") (LStr [233]))]. split; [reflexivity|discriminate].
Qed.
