(** Specification for the front end of the script macro: what the pieces of a Rust function annotated with
    [#[script(..)]] stand for. *)
From Verif Require Import Base Model_Opcode Model_Script Model_Behavior Model_Macro Spec_Macro Model_MacroParse.
Local Open Scope string_scope.
Local Open Scope list_scope.
Local Open Scope Z_scope.

(** [&], [|] and [!] are not alphanumeric. *)
Definition rust_ok (R : rust) : Prop := alphanumeric R 124 = false /\ alphanumeric R 38 = false /\ alphanumeric R 33 = false.
(** Unicode code points *)
Definition code_points (s : list Z) : Prop := Forall (fun c => 0 <= c < 1114112) s.
Section Grammar.
Context (R : rust).

(** ** Lines *)
(** [let x] and [let (x, y, ..)] *)
Inductive binds : pat -> list string -> Prop :=
| BiName n : binds (PIdent n true) [n]
| BiTuple ps ns : Forall2 (fun p n => exists plain, p = PIdent n plain) ps ns -> binds (PTuple true ps) ns.
(** [OP_X] and [OP_X(a, b)]: an opcode or function of the macro, with or without arguments *)
Inductive applies : expr -> string -> option (list expr) -> Prop :=
| ApName x : applies (EPath (One x)) x None
| ApCall x args : applies (ECall false (EPath (One x)) args) x (Some args).
(** Calls and paths are always taken for opcodes; any other expression is a value to push. *)
Definition opcode_shaped (e : expr) : Prop := match e with ECall _ _ _ | EPath _ => True | _ => False end.
(** An argument: the name of a stack item or an expression *)
Inductive argument : expr -> opcode_input -> Prop :=
| ArName x : argument (EPath (One x)) (InIdent x)
| ArExpr e : (forall x, e <> EPath (One x)) -> argument e (InExpr (expr_text R e) (expr_num R e)).
Definition arguments (args : option (list expr)) (ins : option (list opcode_input)) : Prop :=
  match args, ins with
  | None, None => True
  | Some l, Some l' => Forall2 argument l l'
  | _, _ => False
  end.
Definition opcode_line (e : expr) (outs : option (list string)) (o : opcode_stmt) : Prop :=
  exists args, applies e (os_ident o) args /\ arguments args (os_inputs o) /\ os_outputs o = outs.
(** A value that is pushed as it stands: no call or path, and no loop, conditional or block (which are statements). *)
Definition plain_value (e : expr) : Prop := match e with EOther _ => True | _ => False end.
(** The lines of a function body, in source order; braces only group. *)
Inductive line : rust_stmt -> list stmt -> Prop :=
| LnLetOpcode p ns e o : binds p ns -> opcode_line e (Some ns) o -> line (StLocal p (Some e)) [SOpcode o]
| LnLetPush p n e : binds p [n] -> ~ opcode_shaped e -> line (StLocal p (Some e)) [SPush (expr_pushop R e) (Some n)]
| LnExpr e l : line_expr e l -> line (StExpr e) l
| LnSemi e l : line_expr e l -> line (StSemi e) l
with line_expr : expr -> list stmt -> Prop :=
| LnOpcode e o : opcode_line e None o -> line_expr e [SOpcode o]
| LnPush e : plain_value e -> line_expr e [SPush (expr_pushop R e) None]
| LnBlock b l : lines b l -> line_expr (EBlock b) l
with lines : list rust_stmt -> list stmt -> Prop :=
| LnNil : lines [] []
| LnCons s r a b : line s a -> lines r b -> lines (s :: r) (a ++ b).

(** ** Conditionals *)
(** Which statements belong to which conditional.  The macro's restriction: a conditional written directly inside a
    then-branch has no ELSE, one written directly inside an else-branch has one; in braces of its own a conditional may
    stand anywhere. *)
Inductive where_ : Type := Outside | InThen | InElse.
Inductive groups : where_ -> list stmt -> list stmt -> Prop :=
| GrEnd k : groups k [] []
| GrPlain k s l t : (forall o, s = SOpcode o -> ~ is_bracket o) -> groups k l t -> groups k (s :: l) (s :: t)
| GrIf k i a ta en l t : k <> InElse -> is_if i -> groups InThen a ta -> os_ident en = "OP_ENDIF" -> groups k l t ->
    groups k (SOpcode i :: a ++ SOpcode en :: l) (SScriptIf i ta None [] en :: t)
| GrIfElse k i a ta el b tb en l t : k <> InThen -> is_if i -> groups InThen a ta -> os_ident el = "OP_ELSE" -> groups InElse b tb -> os_ident en = "OP_ENDIF" -> groups k l t ->
    groups k (SOpcode i :: a ++ SOpcode el :: b ++ SOpcode en :: l) (SScriptIf i ta (Some el) tb en :: t).
(** What a statement and a block in braces stand for, conditionals grouped. *)
Inductive stands : rust_stmt -> list stmt -> Prop :=
| SaLetOpcode p ns e o : binds p ns -> opcode_line e (Some ns) o -> stands (StLocal p (Some e)) [SOpcode o]
| SaLetPush p n e : binds p [n] -> ~ opcode_shaped e -> stands (StLocal p (Some e)) [SPush (expr_pushop R e) (Some n)]
| SaExpr e l : stands_expr e l -> stands (StExpr e) l
| SaSemi e l : stands_expr e l -> stands (StSemi e) l
with stands_expr : expr -> list stmt -> Prop :=
| SaOpcode e o : opcode_line e None o -> stands_expr e [SOpcode o]
| SaPush e : plain_value e -> stands_expr e [SPush (expr_pushop R e) None]
| SaBlock b t : block b t -> stands_expr (EBlock b) t
| SaFor h b t : block b t -> stands_expr (EForLoop h b) [SForLoop t]
| SaIf c b t : block b t -> stands_expr (EIf c b None) [SRustIf t []]
| SaIfElse c b t e es : block b t -> stands_expr e es -> stands_expr (EIf c b (Some e)) [SRustIf t es]
with block : list rust_stmt -> list stmt -> Prop :=
| BlBlock l flat t : all_stand l flat -> groups Outside flat t -> block l t
with all_stand : list rust_stmt -> list stmt -> Prop :=
| AsNil : all_stand [] []
| AsCons s r a b : stands s a -> all_stand r b -> all_stand (s :: r) (a ++ b).

(** ** Acceptance *)
(** The opcode written directly in a statement, if any *)
Definition head_opcode (e : expr) : list stmt :=
  match e with EPath (One x) | ECall _ (EPath (One x)) _ => [SOpcode (OpcodeStmt x None None)] | _ => [] end.
Definition own (s : rust_stmt) : list stmt :=
  match s with StLocal _ (Some e) | StExpr e | StSemi e => head_opcode e | _ => [] end.
(** Acceptable statements: [let] patterns of names, calls of single names, every block's own IF/ELSE/ENDIF balanced. *)
Inductive acceptable : rust_stmt -> Prop :=
| AcLetOpcode p ns e x args : binds p ns -> applies e x args -> acceptable (StLocal p (Some e))
| AcLetPush p n e : binds p [n] -> ~ opcode_shaped e -> acceptable (StLocal p (Some e))
| AcExpr e : acceptable_expr e -> acceptable (StExpr e)
| AcSemi e : acceptable_expr e -> acceptable (StSemi e)
with acceptable_expr : expr -> Prop :=
| AcOpcode e x args : applies e x args -> acceptable_expr e
| AcPush e : plain_value e -> acceptable_expr e
| AcBlock b : acceptable_block b -> acceptable_expr (EBlock b)
| AcFor h b : acceptable_block b -> acceptable_expr (EForLoop h b)
| AcIf c b : acceptable_block b -> acceptable_expr (EIf c b None)
| AcIfElse c b e : acceptable_block b -> acceptable_expr e -> acceptable_expr (EIf c b (Some e))
with acceptable_block : list rust_stmt -> Prop :=
| AcStmts l : acceptable_all l -> depth_after 0 (concat (map own l)) = Some O -> acceptable_block l
with acceptable_all : list rust_stmt -> Prop :=
| AcNil : acceptable_all []
| AcCons s l : acceptable s -> acceptable_all l -> acceptable_all (s :: l).

(** ** The attribute *)
(** [Name="a&&!b||c"], [crate="name"], [debug=true] *)
Inductive arg_means : Type := VariantArg (n : string) (p : predicate) | CrateArg (c : string) | DebugArg (b : bool).
Definition predicate_of (p : list (list (bool * list Z))) : predicate := map (map (fun l => Atom (utf8 (snd l)) (fst l))) p.
Inductive arg : nested_meta -> arg_means -> Prop :=
| ArgVariant n p : n <> "crate" -> n <> "debug" -> predicate_ok (alphanumeric R) p -> arg (NMeta (MNameValue (One n) (LStr (predicate_text p)))) (VariantArg n (predicate_of p))
| ArgCrate s : ident_ok R s = true -> arg (NMeta (MNameValue (One "crate") (LStr s))) (CrateArg (utf8 s))
| ArgDebug b : arg (NMeta (MNameValue (One "debug") (LBool b))) (DebugArg b).
Definition variant_args (l : list arg_means) : list (string * predicate) := concat (map (fun a => match a with VariantArg n p => [(n, p)] | _ => [] end) l).
(** The last one written counts *)
Definition last_some {A} (l : list (option A)) : option A := fold_left (fun r x => match x with Some _ => x | None => r end) l None.
Definition crate_arg (l : list arg_means) : option string := last_some (map (fun a => match a with CrateArg c => Some c | _ => None end) l).
Definition debug_arg (l : list arg_means) : option bool := last_some (map (fun a => match a with DebugArg b => Some b | _ => None end) l).
(** [Inputs, ...] *)
Definition macro_args (l : list nested_meta) (a : macro_attrs) : Prop :=
  exists rest args, l = NMeta (MPath (One (ma_struct a))) :: rest /\ Forall2 arg rest args /\
  ma_variants a = variant_args args /\ ma_crate a = crate_arg args /\ ma_debug a = debug_arg args.

(** ** Parameters *)
(** [#[variant(A, B)]]; [#[variant]] alone names a variant called variant. *)
Inductive variant_attr : attribute -> list string -> Prop :=
| VaList p vs : variant_attr (Attribute (One "variant") (Some (MList p (map (fun v => NMeta (MPath (One v))) vs)))) vs
| VaPath v : variant_attr (Attribute (One "variant") (Some (MPath (One v)))) [v].
Definition other_attr (a : attribute) : Prop := at_path a <> (One "variant").
(** The attributes of a parameter: those naming variants (the last one counts) and the others, which are kept. *)
Inductive input_attrs : list attribute -> option (list string) -> list attribute -> Prop :=
| IaNil : input_attrs [] None []
| IaVariant a vs l v kept : variant_attr a vs -> input_attrs l v kept -> input_attrs (a :: l) (match v with None => Some vs | _ => v end) kept
| IaOther a l v kept : other_attr a -> input_attrs l v kept -> input_attrs (a :: l) v (a :: kept).
Inductive script_input_of : fn_arg -> ir_input -> Prop :=
| SiInput attrs n plain ty v kept : input_attrs attrs v kept -> script_input_of (Typed attrs (PIdent n plain) ty) (IrInput n ty v kept).
(** The first parameter gives the type the script's parameters come from, the others are the script's inputs. *)
Definition parameters (l : list fn_arg) (ty : string) (ins : list ir_input) : Prop :=
  exists attrs p rest, l = Typed attrs p ty :: rest /\ Forall2 script_input_of rest ins.

(** ** Doc comments *)
(** The doc lines of the function, in order *)
Definition doc_lines (l : list attribute) : list (list Z) :=
  concat (map (fun a => match at_meta a with Some (MNameValue (One x) (LStr s)) => if String.eqb x "doc" then [s] else [] | _ => [] end) l).
(** "# Name" and "## Name", spaces around aside *)
Definition blank (c : Z) : Prop := whitespace R c = true.
Definition trimmed (doc core : list Z) : Prop :=
  (exists before after, doc = before ++ core ++ after /\ Forall blank before /\ Forall blank after) /\
  (forall c r, core = c :: r -> ~ blank c) /\ (forall c r, core = r ++ [c] -> ~ blank c).
Definition is_header (prefix : list Z) (name : string) (doc : list Z) : Prop := exists r, trimmed doc (prefix ++ r) /\ utf8 r = name.
Definition struct_header := is_header [35; 32].
Definition variant_header := is_header [35; 35; 32].
(** A doc line that starts nothing *)
Definition plain_doc (name : string) (variants : list string) (doc : list Z) : Prop :=
  ~ struct_header name doc /\ forall v, In v variants -> ~ variant_header v doc.
End Grammar.
