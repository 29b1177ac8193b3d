(** Model of what the script macro puts out: bitcoin-cash-script-macro/src/generate.rs:33-267 (the generated items),
    793-810, 887-922 (the tags of the ops), 928-962 (source texts), and of the [token_stream] fields that parse.rs fills.
    Not modelled: rustfmt (gen_source.rs) and the Rust tokens around the generated ops; [file!()], [line!()] and [column!()] are parameters. *)
From Verif Require Import Base Model_Opcode Model_Script Model_Behavior Model_Macro Model_MacroParse.
Local Open Scope string_scope.
Local Open Scope list_scope.
Local Open Scope Z_scope.

(** ** Statements with their source text *)
(** ir.rs:48-113 [TaggedStmt] and the statements, with their token streams as text *)
Inductive tstmt : Type :=
| TPush (src : string) (o : op) (name : option string)
| TOpcode (src : string) (o : opcode_stmt)
| TForLoop (src : string) (body : list tstmt)
| TRustIf (src : string) (t e : list tstmt)
| TScriptIf (if_src : string) (i : opcode_stmt) (t : list tstmt) (els : option (string * opcode_stmt)) (e : list tstmt) (endif_src : string) (en : opcode_stmt).
(** Without the texts: Model_Macro.v's statements *)
Fixpoint erase (s : tstmt) : stmt :=
  let all := fix all (l : list tstmt) : list stmt := match l with [] => [] | x :: r => erase x :: all r end in
  match s with
  | TPush _ o n => SPush o n
  | TOpcode _ o => SOpcode o
  | TForLoop _ b => SForLoop (all b)
  | TRustIf _ t e => SRustIf (all t) (all e)
  | TScriptIf _ i t el e _ en => SScriptIf i (all t) (option_map snd el) (all e) en
  end.
(** What is outside the macro: the texts of statements and parameters ([to_token_stream().to_string()]), rustfmt's output for some
    statements at every line width (or failure), what a reference type refers to, and the places [file!()], [line!()], [column!()]
    report for the n-th op of the script and for the n-th input of a variant (or of the struct). *)
Record source : Type := Source {
  src_stmt : rust_stmt -> string; src_input : fn_arg -> string; src_format : list Z -> list string -> option (list (list string));
  src_deref : string -> option string; src_file : string; src_script_pos : nat -> Z * Z; src_input_pos : string -> nat -> Z * Z
}.
(** parse.rs:449-533 [parse_op_if] with texts *)
Record topen_if : Type := TOpenIf { to_if_src : string; to_if : opcode_stmt; to_else : option (string * opcode_stmt); to_then_stmts : list tstmt; to_else_stmts : list tstmt }.
Record tif_parser : Type := TIfParser { tp_new : list tstmt; tp_stack : list topen_if; tp_is_then : bool }.
Definition tplace (p : tif_parser) (s : tstmt) : tif_parser :=
  match tp_stack p with
  | [] => TIfParser (tp_new p ++ [s]) [] (tp_is_then p)
  | top :: rest =>
    if tp_is_then p
    then TIfParser (tp_new p) (TOpenIf (to_if_src top) (to_if top) (to_else top) (to_then_stmts top ++ [s]) (to_else_stmts top) :: rest) (tp_is_then p)
    else TIfParser (tp_new p) (TOpenIf (to_if_src top) (to_if top) (to_else top) (to_then_stmts top) (to_else_stmts top ++ [s]) :: rest) (tp_is_then p)
  end.
Definition tparse_op_if_step (p : tif_parser) (s : tstmt) : outcome tif_parser :=
  match s with
  | TOpcode src o =>
    if String.eqb (os_ident o) "OP_IF" || String.eqb (os_ident o) "OP_NOTIF" then
      Ok (TIfParser (tp_new p) (TOpenIf src o None [] [] :: tp_stack p) true)
    else if String.eqb (os_ident o) "OP_ELSE" then
      match tp_stack p with
      | [] => Err (EMsg 1)
      | top :: rest => Ok (TIfParser (tp_new p) (TOpenIf (to_if_src top) (to_if top) (Some (src, o)) (to_then_stmts top) (to_else_stmts top) :: rest) false)
      end
    else if String.eqb (os_ident o) "OP_ENDIF" then
      match tp_stack p with
      | [] => Err (EMsg 1)
      | top :: rest => Ok (tplace (TIfParser (tp_new p) rest (tp_is_then p)) (TScriptIf (to_if_src top) (to_if top) (to_then_stmts top) (to_else top) (to_else_stmts top) src o))
      end
    else Ok (tplace p (TOpcode src o))
  | _ => Ok (tplace p s)
  end.
Fixpoint tparse_op_if_loop (p : tif_parser) (l : list tstmt) : outcome tif_parser :=
  match l with [] => Ok p | s :: r => do p' <- tparse_op_if_step p s; tparse_op_if_loop p' r end.
Definition tparse_op_if (l : list tstmt) : outcome (list tstmt) :=
  do p <- tparse_op_if_loop (TIfParser [] [] true) l;
  match tp_stack p with [] => Ok (tp_new p) | _ => Err (EMsg 2) end.
(** parse.rs:282-393 with texts: a [let] has the text of the statement, anything else that of its expression *)
Definition tparse_let (R : rust) (S : source) (p : pat) (init : option expr) : outcome (list tstmt) :=
  let src := src_stmt S (StLocal p init) in
  match init with
  | None => Err (EMsg 50)
  | Some e =>
    do outs <- let_outputs p;
    if is_call_or_path e then do o <- parse_opcode R e (Some outs); Ok [TOpcode src o]
    else match outs with [n] => Ok [TPush src (expr_pushop R e) (Some n)] | _ => Err (EMsg 52) end
  end.
Fixpoint tparse_stmt_expr (R : rust) (S : source) (e : expr) {struct e} : outcome (list tstmt) :=
  let collect := fix collect (l : list rust_stmt) {struct l} : outcome (list tstmt) :=
    match l with [] => Ok [] | s :: r => do a <- tparse_stmt R S s; do b <- collect r; Ok (a ++ b) end in
  match e with
  | EForLoop _ body => do l <- collect body; do b <- tparse_op_if l; Ok [TForLoop (expr_text R e) b]
  | EIf _ then_branch else_branch =>
    do l <- collect then_branch; do t <- tparse_op_if l;
    do es <- match else_branch with Some x => tparse_stmt_expr R S x | None => Ok [] end;
    Ok [TRustIf (expr_text R e) t es]
  | EBlock stmts => do l <- collect stmts; tparse_op_if l
  | ECall _ _ _ | EPath _ => do o <- parse_opcode R e None; Ok [TOpcode (expr_text R e) o]
  | EOther _ => Ok [TPush (expr_text R e) (expr_pushop R e) None]
  end
with tparse_stmt (R : rust) (S : source) (s : rust_stmt) {struct s} : outcome (list tstmt) :=
  match s with
  | StLocal p init => tparse_let R S p init
  | StExpr e | StSemi e => tparse_stmt_expr R S e
  | StItem => Err (EMsg 53)
  end.
Definition tcollect (R : rust) (S : source) : list rust_stmt -> outcome (list tstmt) :=
  fix collect (l : list rust_stmt) : outcome (list tstmt) :=
    match l with [] => Ok [] | s :: r => do a <- tparse_stmt R S s; do b <- collect r; Ok (a ++ b) end.
Definition tparse_stmts (R : rust) (S : source) (l : list rust_stmt) : outcome (list tstmt) := do r <- tcollect R S l; tparse_op_if r.
(** generate.rs:928-962 [make_stmt_token_streams] *)
Fixpoint stmt_texts (s : tstmt) : list string :=
  let all := fix all (l : list tstmt) : list string := match l with [] => [] | x :: r => stmt_texts x ++ all r end in
  match s with
  | TPush src _ _ => [src]
  | TOpcode src o => if String.eqb (os_ident o) "transmute" then [] else [src]
  | TForLoop _ b => all b
  | TRustIf _ t e => all t ++ all e
  | TScriptIf src _ t el e endif_src _ => src :: all t ++ match el with Some (x, _) => [x] | None => [] end ++ all e ++ [endif_src]
  end.
Definition make_stmt_token_streams (l : list tstmt) : list string := flat_map stmt_texts l.

(** ** Tags *)
(** lib.rs:57 *)
Definition max_line_widths : list Z := [30; 40; 60; 80].
(** generate.rs:887-922 [make_tagged_op] *)
Definition make_tagged_op (debug : bool) (file : string) (pos : Z * Z) (o : op) (src_code : list (Z * string)) (pushed alt_pushed : list (option string)) : tagged_op :=
  if debug then TaggedOp o file (fst pos) (snd pos) src_code (Some pushed) (Some alt_pushed)
  else TaggedOp o "" 0 0 [] None None.
(** generate.rs:793-810 [next_formatted_stmts]: the texts of statement [n] at every width *)
Definition formatted_stmts (lines : list (list string)) (n : nat) : list (Z * string) :=
  map (fun '(l, w) => (w, match nth_error l n with Some x => x | None => "<unknown>" end)) (combine lines max_line_widths).
(** The value of an emitted op: [Op::Code(c)], [(expr).to_pushop()], [((depth) + (offset)).to_pushop()] *)
Definition emitted_value (e : emitted) : op := match em_op e with EmCode c => OCode c | EmPush o => o | EmNumber n => OPushInt n end.
(** generate.rs:294-316, 342-410, 430-618, 632-680: every op takes the next text, in the order in which the ops are generated. *)
Fixpoint tag_ops (debug : bool) (S : source) (lines : list (list string)) (n : nat) (code : list emitted) : list tagged_op :=
  match code with
  | [] => []
  | e :: r => make_tagged_op debug (src_file S) (src_script_pos S n) (emitted_value e) (formatted_stmts lines n) (em_pushed e) (em_alt_pushed e) :: tag_ops debug S lines (1 + n) r
  end.

(** ** The generated items *)
Record field : Type := Field { fi_attrs : list attribute; fi_pub : bool; fi_name : string; fi_ty : string; fi_src : string }.
Inductive inputs_item : Type :=
| GStruct (fields : list field)
| GEnum (variants : list (string * list (list Z) * list field)).
Record generated : Type := Generated {
  ge_name : string; ge_docs : list (list Z); ge_item : inputs_item;          (* the struct or enum *)
  ge_crate : string; ge_impl_type : string; ge_by_ref : bool;                (* impl T { fn f(self) / fn f(&self) } *)
  ge_fn : string; ge_hidden_fn : string; ge_fn_attrs : list attribute; ge_debug : bool; ge_source : source;
  ge_script : list tagged_op                                                 (* what the method returns *)
}.
(** generate.rs:73-131: the fields for every variant *)
Fixpoint push_fields (vs : list string) (f : field) (m : list (string * list field)) : outcome (list (string * list field)) :=
  match vs with
  | [] => Ok m
  | v :: r => match lookup v m with Some l => push_fields r f (insert v (l ++ [f]) m) | None => Panic end
  end.
Fixpoint enum_fields (all_variants : list string) (ins : list field) (vars : list (option (list string))) (m : list (string * list field)) : outcome (list (string * list field)) :=
  match ins, vars with
  | f :: r, v :: rv => do m' <- push_fields (match v with Some vs => vs | None => all_variants end) f m; enum_fields all_variants r rv m'
  | _, _ => Ok m
  end.
Definition field_of (is_pub : bool) (i : ir_input) (src : string) : field := Field (ii_attrs i) is_pub (ii_ident i) (ii_ty i) src.
(** The texts of the parameters after the first *)
Definition input_texts (S : source) (f : item_fn) : list string := map (src_input S) (tl (fn_inputs f)).
(** generate.rs:33-267 [run_script].  [fi_pub]: fields of a struct are [pub], those of an enum variant carry no [pub]. *)
Definition generate (S : source) (s : ir_script) (ts : list tstmt) : outcome generated :=
  match src_format S max_line_widths (make_stmt_token_streams ts) with
  | None => Err (EMsg 60)
  | Some lines =>
    do (g, code) <- run_script (macro_of s);
    let variants := map fst (ir_variants s) in
    let fields is_pub := map (fun '(i, t) => field_of is_pub i t) (combine (ir_inputs s) (input_texts S (ir_fn s))) in
    do m <- match ir_variants s with
            | [] => Ok []
            | _ => enum_fields variants (fields false) (map ii_variants (ir_inputs s)) (fold_left (fun m v => insert v [] m) variants [])
            end;
    if fn_const_generics (ir_fn s) then Panic
    else
      let item := match ir_variants s with
                  | [] => GStruct (fields true)
                  | _ => GEnum (map (fun v => (v, match lookup v (sd_variants (ir_docs s)) with Some d => d | None => [] end,
                                               match lookup v m with Some l => l | None => [] end)) variants)
                  end in
      Ok (Generated (ir_struct s) (sd_struct (ir_docs s)) item (match ir_crate s with Some c => c | None => "bitcoin_cash" end)
            (match src_deref S (ir_param_type s) with Some t => t | None => ir_param_type s end) (match src_deref S (ir_param_type s) with Some _ => true | None => false end)
            (fn_name (ir_fn s)) ("__impl_" ++ fn_name (ir_fn s))%string (fn_attrs (ir_fn s)) (ir_debug s) S
            (tag_ops (ir_debug s) S lines 0 code))
  end.
(** lib.rs:44-70 [script]: parse, then generate *)
Definition expand (R : rust) (S : source) (args : list nested_meta) (f : item_fn) : outcome generated :=
  do s <- parse_script R args f; do ts <- tparse_stmts R S (fn_block f); generate S s ts.

(** ** Using the generated items *)
(** The ops of fields holding values whose [to_pushop()] is [vals] (generate.rs:85-97, 203-220) *)
Fixpoint push_inputs (G : generated) (v : string) (n : nat) (l : list field) (vals : string -> op) : list tagged_op :=
  match l with
  | [] => []
  | f :: r => make_tagged_op (ge_debug G) (src_file (ge_source G)) (src_input_pos (ge_source G) v n) (vals (fi_name f)) (map (fun w => (w, fi_src f)) max_line_widths) [Some (fi_name f)] []
              :: push_inputs G v (1 + n) r vals
  end.
Fixpoint find_variant (v : string) (l : list (string * list (list Z) * list field)) : option (list field) :=
  match l with [] => None | (w, _, fs) :: r => if String.eqb v w then Some fs else find_variant v r end.
(** generate.rs:243-248 [ops] of a value: [v] is its variant (for a struct its name) *)
Definition input_ops (G : generated) (v : string) (vals : string -> op) : option (list tagged_op) :=
  match ge_item G with
  | GStruct fs => Some (push_inputs G v 0 fs vals)
  | GEnum vs => match find_variant v vs with Some fs => Some (push_inputs G v 0 fs vals) | None => None end
  end.
