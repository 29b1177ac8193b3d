(** Model of the front end of the script macro: bitcoin-cash-script-macro/src/parse.rs (the rest of it; [parse_op_if] and
    [parse_predicate] are in Model_Macro.v).  It starts from what syn has parsed: the attribute's arguments and the function.
    Identifiers and types are strings, string literals are lists of Unicode scalar values.  Not modelled: spans, error
    texts ([EMsg] numbers stand for them), visibility and generics other than const generics. *)
From Coq Require Import Ascii.
From Verif Require Import Base Model_Opcode Model_Script Model_Behavior Model_Macro.
Local Open Scope string_scope.
Local Open Scope list_scope.
Local Open Scope Z_scope.

(** ** What syn provides *)
(** [syn::Path]: the identifiers of its segments (at least one) *)
Inductive path : Type := Path (first : string) (rest : list string).
Notation One x := (Path x []).
Inductive lit : Type := LStr (s : list Z) | LBool (b : bool) | LOther.
(** [syn::Meta], [syn::NestedMeta] *)
Inductive meta : Type :=
| MPath (p : path)
| MList (p : path) (nested : list nested_meta)
| MNameValue (p : path) (l : lit)
with nested_meta : Type := NMeta (m : meta) | NLit (l : lit).
(** [syn::Attribute]; [None] when [parse_meta] fails *)
Record attribute : Type := Attribute { at_path : path; at_meta : option meta }.
(** [syn::Pat]; the flag says that an identifier or tuple has no attributes and the identifier no [ref], [mut] or subpattern *)
Inductive pat : Type := PIdent (name : string) (plain : bool) | PTuple (plain : bool) (elems : list pat) | POther.
(** [syn::Expr] and [syn::Stmt] as far as the parser looks into them; [attrs]: whether a call carries attributes.  The
    loop head is opaque. *)
Inductive expr : Type :=
| ECall (attrs : bool) (func : expr) (args : list expr)
| EPath (p : path)
| EForLoop (head : string) (body : list rust_stmt)
| EIf (cond : expr) (then_branch : list rust_stmt) (else_branch : option expr)
| EBlock (stmts : list rust_stmt)
| EOther (text : string)
with rust_stmt : Type :=
| StLocal (p : pat) (init : option expr)
| StExpr (e : expr)
| StSemi (e : expr)
| StItem.
(** [syn::FnArg] *)
Inductive fn_arg : Type := Receiver | Typed (attrs : list attribute) (p : pat) (ty : string).
(** [syn::ItemFn]; [fn_const_generics]: it has a const generic parameter *)
Record item_fn : Type := ItemFn {
  fn_attrs : list attribute; fn_name : string; fn_const_generics : bool; fn_returns : bool; fn_inputs : list fn_arg; fn_block : list rust_stmt
}.
(** What is outside the macro: the character classes of Rust's [char], which texts [syn::Ident::new] accepts, the text of an expression, its
    value when used as a number and the op [(expr).to_pushop()] evaluates to. *)
Record rust : Type := Rust {
  alphanumeric : Z -> bool; whitespace : Z -> bool; ident_ok : list Z -> bool;
  expr_text : expr -> string; expr_num : expr -> Z; expr_pushop : expr -> op
}.
(** The UTF-8 bytes of a text, as a string *)
Definition utf8_char (c : Z) : list Z :=
  if c <? 128 then [c]
  else if c <? 2048 then [192 + c / 64; 128 + c mod 64]
  else if c <? 65536 then [224 + c / 4096; 128 + c / 64 mod 64; 128 + c mod 64]
  else [240 + c / 262144; 128 + c / 4096 mod 64; 128 + c / 64 mod 64; 128 + c mod 64].
Definition utf8 (s : list Z) : string := string_of_list_ascii (map (fun b => ascii_of_N (Z.to_N b)) (concat (map utf8_char s))).

(** parse.rs:68-74 [single_path] *)
Definition single_path (p : path) : option string := match p with One x => Some x | _ => None end.
(** parse.rs:174-180 [parse_string_lit], 182-188 [parse_bool_lit] *)
Definition parse_string_lit (l : lit) : option (list Z) := match l with LStr s => Some s | _ => None end.
Definition parse_bool_lit (l : lit) : option bool := match l with LBool b => Some b | _ => None end.
(** parse.rs:190-192 and ir.rs:29-38: [parse_predicate] on a literal *)
Definition parse_predicate_lit (R : rust) (l : lit) : outcome predicate :=
  match parse_string_lit l with
  | None => Err (EMsg 32)
  | Some s => do p <- parse_predicate (alphanumeric R) s; Ok (map (map (fun '(b, n) => Atom (utf8 n) b)) p)
  end.

(** ** The attribute's arguments *)
Record macro_attrs : Type := MacroAttrs { ma_struct : string; ma_crate : option string; ma_variants : list (string * predicate); ma_debug : option bool }.
(** parse.rs:91-114: one argument after the first *)
Definition parse_attr (R : rust) (a : macro_attrs) (n : nested_meta) : outcome macro_attrs :=
  match n with
  | NMeta (MNameValue p l) =>
    match single_path p with
    | None => Err (EMsg 33)
    | Some name =>
      if String.eqb name "crate" then
        match parse_string_lit l with
        | None => Err (EMsg 34)
        | Some s => if ident_ok R s then Ok (MacroAttrs (ma_struct a) (Some (utf8 s)) (ma_variants a) (ma_debug a)) else Panic
        end
      else if String.eqb name "debug" then
        match parse_bool_lit l with
        | None => Err (EMsg 35)
        | Some b => Ok (MacroAttrs (ma_struct a) (ma_crate a) (ma_variants a) (Some b))
        end
      else do p <- parse_predicate_lit R l; Ok (MacroAttrs (ma_struct a) (ma_crate a) (ma_variants a ++ [(name, p)]) (ma_debug a))
    end
  | _ => Err (EMsg 36)
  end.
Fixpoint parse_attr_loop (R : rust) (a : macro_attrs) (l : list nested_meta) : outcome macro_attrs :=
  match l with [] => Ok a | n :: r => do a' <- parse_attr R a n; parse_attr_loop R a' r end.
(** parse.rs:76-116 [parse_attrs] *)
Definition parse_attrs (R : rust) (l : list nested_meta) : outcome macro_attrs :=
  match l with
  | [] => Err (EMsg 37)
  | NMeta (MPath p) :: rest =>
    match single_path p with
    | Some name => parse_attr_loop R (MacroAttrs name None [] None) rest
    | None => Err (EMsg 38)
    end
  | _ => Err (EMsg 39)
  end.

(** ** Doc comments *)
(** [str::trim] *)
Fixpoint drop_while (f : Z -> bool) (s : list Z) : list Z := match s with [] => [] | c :: r => if f c then drop_while f r else s end.
Definition trim (R : rust) (s : list Z) : list Z := rev (drop_while (whitespace R) (rev (drop_while (whitespace R) s))).
(** parse.rs:162-172 [parse_doc_attribute] *)
Definition parse_doc_attribute (a : attribute) : option (list Z) :=
  match at_meta a with
  | Some (MNameValue p l) => match single_path p with Some x => if String.eqb x "doc" then parse_string_lit l else None | None => None end
  | _ => None
  end.
(** ir.rs:19-22 [ScriptDocs]; a hash map is a list of pairs, the first with a key counts *)
Record script_docs : Type := ScriptDocs { sd_struct : list (list Z); sd_variants : list (string * list (list Z)) }.
Fixpoint lookup {A} (k : string) (l : list (string * A)) : option A :=
  match l with [] => None | (k', a) :: r => if String.eqb k k' then Some a else lookup k r end.
Fixpoint insert {A} (k : string) (a : A) (l : list (string * A)) : list (string * A) :=
  match l with [] => [(k, a)] | (k', b) :: r => if String.eqb k k' then (k, a) :: r else (k', b) :: insert k a r end.
(** parse.rs:118-160: the loop's state *)
Record doc_state : Type := DocState { ds_found : bool; ds_current : option string; ds_docs : script_docs }.
Definition starts_with (prefix s : list Z) : option (list Z) :=
  if list_eq_dec Z.eq_dec (firstn (length prefix) s) prefix then Some (skipn (length prefix) s) else None.
Definition header (name : string) (prefix s : list Z) : bool :=
  match starts_with prefix s with Some r => String.eqb name (utf8 r) | None => false end.
(** parse.rs:129-154: one doc line *)
Definition parse_doc (R : rust) (input_struct : string) (variants : list string) (d : doc_state) (doc : list Z) : outcome doc_state :=
  let t := trim R doc in
  if header input_struct [35; 32] t then Ok (DocState true (ds_current d) (ds_docs d))
  else
    match (if ds_found d then find (fun v => header v [35; 35; 32] t) variants else None) with
    | Some v => Ok (DocState true (Some v) (ScriptDocs (sd_struct (ds_docs d)) (insert v [] (sd_variants (ds_docs d)))))
    | None =>
      match ds_current d with
      | Some v =>
        match lookup v (sd_variants (ds_docs d)) with
        | Some docs => Ok (DocState (ds_found d) (ds_current d) (ScriptDocs (sd_struct (ds_docs d)) (insert v (docs ++ [doc]) (sd_variants (ds_docs d)))))
        | None => Panic
        end
      | None =>
        if ds_found d then Ok (DocState true None (ScriptDocs (sd_struct (ds_docs d) ++ [doc]) (sd_variants (ds_docs d))))
        else Ok d
      end
    end.
Fixpoint parse_docs_loop (R : rust) (input_struct : string) (variants : list string) (d : doc_state) (l : list attribute) : outcome doc_state :=
  match l with
  | [] => Ok d
  | a :: r =>
    match parse_doc_attribute a with
    | Some doc => do d' <- parse_doc R input_struct variants d doc; parse_docs_loop R input_struct variants d' r
    | None => parse_docs_loop R input_struct variants d r
    end
  end.
(** parse.rs:118-160 [parse_docs] *)
Definition parse_docs (R : rust) (attrs : list attribute) (input_struct : string) (variants : list string) : outcome script_docs :=
  do d <- parse_docs_loop R input_struct variants (DocState false None (ScriptDocs [] [])) attrs; Ok (ds_docs d).

(** ** Parameters *)
(** ir.rs:40-46 [ScriptInput] *)
Record ir_input : Type := IrInput { ii_ident : string; ii_ty : string; ii_variants : option (list string); ii_attrs : list attribute }.
(** parse.rs:241-259: the variants an attribute [#[variant(..)]] names *)
Definition variant_name (n : nested_meta) : outcome string :=
  match n with
  | NMeta (MPath p) => match single_path p with Some v => Ok v | None => Err (EMsg 33) end
  | _ => Err (EMsg 41)
  end.
Definition parse_variant_attr (m : option meta) : outcome (list string) :=
  match m with
  | None => Err (EMsg 40)
  | Some (MList _ nested) => omap variant_name nested
  | Some (MPath p) => match single_path p with Some v => Ok [v] | None => Err (EMsg 33) end
  | Some (MNameValue _ _) => Err (EMsg 41)
  end.
(** parse.rs:233-264: the loop over a parameter's attributes *)
Fixpoint parse_input_attrs (variants : option (list string)) (kept : list attribute) (l : list attribute) : outcome (option (list string) * list attribute) :=
  match l with
  | [] => Ok (variants, kept)
  | a :: r =>
    if match single_path (at_path a) with Some x => String.eqb x "variant" | None => false end
    then do v <- parse_variant_attr (at_meta a); parse_input_attrs (Some v) kept r
    else parse_input_attrs variants (kept ++ [a]) r
  end.
(** parse.rs:230-280 [parse_script_input] *)
Definition parse_script_input (attrs : list attribute) (p : pat) (ty : string) : outcome ir_input :=
  do (variants, kept) <- parse_input_attrs None [] attrs;
  match p with PIdent n _ => Ok (IrInput n ty variants kept) | _ => Err (EMsg 42) end.
(** parse.rs:38-66 [parse_script_inputs] *)
Definition parse_script_inputs (l : list fn_arg) : outcome (list ir_input * string) :=
  match l with
  | [] => Err (EMsg 44)
  | Receiver :: _ => Err (EMsg 43)
  | Typed _ _ param_type :: r =>
    do ins <- omap (fun a => match a with Typed attrs p ty => parse_script_input attrs p ty | Receiver => Err (EMsg 45) end) r;
    Ok (ins, param_type)
  end.

(** ** Statements *)
(** parse.rs:431-447 [parse_opcode_inputs] *)
Definition parse_opcode_input (R : rust) (e : expr) : opcode_input :=
  match e with EPath (One x) => InIdent x | _ => InExpr (expr_text R e) (expr_num R e) end.
(** parse.rs:395-429 [parse_opcode] *)
Definition opcode_of_path (p : path) (ins : option (list opcode_input)) (outs : option (list string)) : outcome opcode_stmt :=
  match p with
  | One x => Ok (OpcodeStmt x ins outs)
  | _ => Err (EMsg 46)
  end.
Definition parse_opcode (R : rust) (e : expr) (outs : option (list string)) : outcome opcode_stmt :=
  match e with
  | ECall attrs func args =>
    if attrs then Err (EMsg 47)
    else match func with EPath p => opcode_of_path p (Some (map (parse_opcode_input R) args)) outs | _ => Err (EMsg 48) end
  | EPath p => opcode_of_path p None outs
  | _ => Err (EMsg 49)
  end.
Definition is_call_or_path (e : expr) : bool := match e with ECall _ _ _ | EPath _ => true | _ => false end.
(** parse.rs:299-321: the names a [let] binds *)
Definition pat_name (p : pat) : outcome string := match p with PIdent n _ => Ok n | _ => Err (EMsg 51) end.
Definition let_outputs (p : pat) : outcome (list string) :=
  match p with
  | PIdent n true => Ok [n]
  | PTuple true elems => omap pat_name elems
  | _ => Err (EMsg 51)
  end.
(** parse.rs:290-351 [parse_stmt], [let] *)
Definition parse_let (R : rust) (p : pat) (init : option expr) : outcome (list stmt) :=
  match init with
  | None => Err (EMsg 50)
  | Some e =>
    do outs <- let_outputs p;
    if is_call_or_path e then do o <- parse_opcode R e (Some outs); Ok [SOpcode o]
    else match outs with [n] => Ok [SPush (expr_pushop R e) (Some n)] | _ => Err (EMsg 52) end
  end.
(** parse.rs:282-288 [parse_stmts], 290-351 [parse_stmt], 353-393 [parse_stmt_expr].  An absent else-branch becomes an empty one. *)
Fixpoint parse_stmt_expr (R : rust) (e : expr) {struct e} : outcome (list stmt) :=
  let collect := fix collect (l : list rust_stmt) {struct l} : outcome (list stmt) :=
    match l with [] => Ok [] | s :: r => do a <- parse_stmt R s; do b <- collect r; Ok (a ++ b) end in
  match e with
  | EForLoop _ body => do l <- collect body; do b <- parse_op_if l; Ok [SForLoop b]
  | EIf _ then_branch else_branch =>
    do l <- collect then_branch; do t <- parse_op_if l;
    do es <- match else_branch with Some x => parse_stmt_expr R x | None => Ok [] end;
    Ok [SRustIf t es]
  | EBlock stmts => do l <- collect stmts; parse_op_if l
  | ECall _ _ _ | EPath _ => do o <- parse_opcode R e None; Ok [SOpcode o]
  | EOther _ => Ok [SPush (expr_pushop R e) None]
  end
with parse_stmt (R : rust) (s : rust_stmt) {struct s} : outcome (list stmt) :=
  match s with
  | StLocal p init => parse_let R p init
  | StExpr e | StSemi e => parse_stmt_expr R e
  | StItem => Err (EMsg 53)
  end.
Definition collect (R : rust) : list rust_stmt -> outcome (list stmt) :=
  fix collect (l : list rust_stmt) : outcome (list stmt) :=
    match l with [] => Ok [] | s :: r => do a <- parse_stmt R s; do b <- collect r; Ok (a ++ b) end.
Definition parse_stmts (R : rust) (l : list rust_stmt) : outcome (list stmt) := do r <- collect R l; parse_op_if r.

(** ** The function *)
(** ir.rs:5-17 [Script] *)
Record ir_script : Type := IrScript {
  ir_struct : string; ir_crate : option string; ir_variants : list (string * predicate); ir_param_type : string;
  ir_inputs : list ir_input; ir_stmts : list stmt; ir_docs : script_docs; ir_debug : bool; ir_fn : item_fn
}.
(** parse.rs:8-36 [parse_script] *)
Definition parse_script (R : rust) (attrs : list nested_meta) (f : item_fn) : outcome ir_script :=
  do a <- parse_attrs R attrs;
  if fn_returns f then Err (EMsg 54)
  else
    do docs <- parse_docs R (fn_attrs f) (ma_struct a) (map fst (ma_variants a));
    do (ins, param_type) <- parse_script_inputs (fn_inputs f);
    do stmts <- parse_stmts R (fn_block f);
    Ok (IrScript (ma_struct a) (ma_crate a) (ma_variants a) param_type ins stmts docs (match ma_debug a with Some b => b | None => true end) f).
(** The part of the parsed script that Model_Macro.v's generator works on *)
Definition macro_of (s : ir_script) : macro_script :=
  MacroScript (ir_struct s) (ir_variants s) (map (fun i => ScriptInput (ii_ident i) (ii_variants i)) (ir_inputs s)) (ir_stmts s).
