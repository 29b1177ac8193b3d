(** Model of the script macro: bitcoin-cash-script-macro/src/{ir,parse,state,generate}.rs.  Identifiers are
    strings.  Not modelled: source positions and formatted source lines (gen_source.rs), doc comments, the Rust
    [let] bindings of the generated code (they only feed rustc's type checker), and error texts ([EMsg]
    numbers stand for them). *)
From Coq Require Import DecimalString.
From Verif Require Import Base Model_Integer Model_ByteArray Model_Opcode Model_Script Model_Behavior.
Local Open Scope string_scope.
Local Open Scope list_scope.
Local Open Scope Z_scope.

(** ** ir.rs *)
(** ir.rs:29-38 *)
Record atom : Type := Atom { var_name : string; is_positive : bool }.
Definition predicate : Type := list (list atom).
(** ir.rs:70-74 [OpcodeInput]; an expression is given by its text and, where it is used as a number
    ([depth_of_offset]), its value. *)
Inductive opcode_input : Type := InIdent (s : string) | InExpr (text : string) (value : Z).
(** ir.rs:76-83 [OpcodeStmt] *)
Record opcode_stmt : Type := OpcodeStmt { os_ident : string; os_inputs : option (list opcode_input); os_outputs : option (list string) }.
(** ir.rs:54-68, 85-113 [Stmt].  [SPush]'s expression is the op [(expr).to_pushop()] evaluates to. *)
Inductive stmt : Type :=
| SPush (expr : op) (output_name : option string)
| SOpcode (o : opcode_stmt)
| SForLoop (body : list stmt)
| SRustIf (then_branch else_branch : list stmt)
| SScriptIf (if_opcode : opcode_stmt) (then_stmts : list stmt) (else_opcode : option opcode_stmt) (else_stmts : list stmt) (endif_opcode : opcode_stmt).

(** ir.rs:115-122 [Display for OpcodeInput] *)
Definition input_text (i : opcode_input) : string := match i with InIdent s => s | InExpr t _ => t end.

(** ir.rs:141-158 [VariantPredicate::holds] *)
Definition holds (p : predicate) (instantiations : list atom) : bool :=
  match p with
  | [] => true
  | _ =>
    existsb (fun conjunction =>
      forallb (fun a => forallb (fun inst => negb (String.eqb (var_name inst) (var_name a)) || Bool.eqb (is_positive inst) (is_positive a)) instantiations)
              conjunction) p
  end.

(** ** parse.rs *)
(** parse.rs:449-532 [parse_op_if] *)
Record open_if : Type := OpenIf {
  oi_if : opcode_stmt; oi_else : option opcode_stmt;
  oi_then_stmts : list stmt; oi_else_stmts : list stmt (* in order *)
}.
Record if_parser : Type := IfParser { ip_new : list stmt; ip_stack : list open_if (* innermost first *); ip_is_then : bool }.
(** parse.rs:516-525: where a finished statement goes *)
Definition place (p : if_parser) (s : stmt) : if_parser :=
  match ip_stack p with
  | [] => IfParser (ip_new p ++ [s]) [] (ip_is_then p)
  | top :: rest =>
    let top' := if ip_is_then p
                then OpenIf (oi_if top) (oi_else top) (oi_then_stmts top ++ [s]) (oi_else_stmts top)
                else OpenIf (oi_if top) (oi_else top) (oi_then_stmts top) (oi_else_stmts top ++ [s]) in
    IfParser (ip_new p) (top' :: rest) (ip_is_then p)
  end.
(** parse.rs:461-515: one statement *)
Definition parse_op_if_step (p : if_parser) (s : stmt) : outcome if_parser :=
  match s with
  | SOpcode o =>
    if String.eqb (os_ident o) "OP_IF" || String.eqb (os_ident o) "OP_NOTIF" then
      Ok (IfParser (ip_new p) (OpenIf o None [] [] :: ip_stack p) true)
    else if String.eqb (os_ident o) "OP_ELSE" then
      match ip_stack p with
      | [] => Err (EMsg 1)
      | top :: rest => Ok (IfParser (ip_new p) (OpenIf (oi_if top) (Some o) (oi_then_stmts top) (oi_else_stmts top) :: rest) false)
      end
    else if String.eqb (os_ident o) "OP_ENDIF" then
      match ip_stack p with
      | [] => Err (EMsg 1)
      | top :: rest =>
        Ok (place (IfParser (ip_new p) rest (ip_is_then p))
                  (SScriptIf (oi_if top) (oi_then_stmts top) (oi_else top) (oi_else_stmts top) o))
      end
    else Ok (place p (SOpcode o))
  | _ => Ok (place p s)
  end.
Fixpoint parse_op_if_loop (p : if_parser) (l : list stmt) : outcome if_parser :=
  match l with [] => Ok p | s :: r => do p' <- parse_op_if_step p s; parse_op_if_loop p' r end.
Definition parse_op_if (l : list stmt) : outcome (list stmt) :=
  do p <- parse_op_if_loop (IfParser [] [] true) l;
  match ip_stack p with [] => Ok (ip_new p) | _ => Err (EMsg 2) end.

(** ** state.rs *)
(** state.rs:7-13 [StackItem] (without [ident], which only names variables of the generated code) *)
Record item : Type := Item { it_name : string; it_generated : bool; it_integer : option Z }.
(** state.rs:15-20 [State]; the head of each list is the top of the stack *)
Record state : Type := State { st_condition : predicate; st_stack : list item; st_alt : list item }.
(** state.rs:22-26 [VariantStates]; the list is in the (arbitrary) iteration order of the hash map *)
Record vstates : Type := VStates { vs_states : list (string * state); vs_atoms : list atom }.
Definition with_stack (s : state) (is_alt : bool) (l : list item) : state :=
  if is_alt then State (st_condition s) (st_stack s) l else State (st_condition s) l (st_alt s).
Definition the_stack (s : state) (is_alt : bool) : list item := if is_alt then st_alt s else st_stack s.
(** state.rs:29-37 [name_tokens] *)
Definition name_tokens (i : item) : option string := if it_generated i then None else Some (it_name i).
(** state.rs:40-54 [push], [push_alt] *)
Definition vs_push (is_alt : bool) (i : item) (vs : vstates) : vstates :=
  VStates (map (fun '(v, s) => (v, if holds (st_condition s) (vs_atoms vs) then with_stack s is_alt (i :: the_stack s is_alt) else s)) (vs_states vs)) (vs_atoms vs).
(** state.rs:76-115, 196-235: names must agree between variants *)
Definition consistent_names (prev : option item) (next : item) : bool :=
  match prev with
  | None => true
  | Some p => Bool.eqb (it_generated next) (it_generated p) &&
              (it_generated next || it_generated p || String.eqb (it_name next) (it_name p))
  end.
(** state.rs:184-248 [pop_flagged] *)
Fixpoint pop_loop (is_alt : bool) (atoms : list atom) (prev : option item) (l : list (string * state)) : outcome (list (string * state) * option item) :=
  match l with
  | [] => Ok ([], prev)
  | (v, s) :: r =>
    if holds (st_condition s) atoms then
      match the_stack s is_alt with
      | [] => Err (EMsg 3)
      | i :: rest =>
        if consistent_names prev i
        then do (r', res) <- pop_loop is_alt atoms (Some i) r; Ok ((v, with_stack s is_alt rest) :: r', res)
        else Err (EMsg 4)
      end
    else do (r', res) <- pop_loop is_alt atoms prev r; Ok ((v, s) :: r', res)
  end.
Definition vs_pop (is_alt : bool) (vs : vstates) : outcome (item * vstates) :=
  do (l, res) <- pop_loop is_alt (vs_atoms vs) None (vs_states vs);
  match res with Some i => Ok (i, VStates l (vs_atoms vs)) | None => Err (EMsg 5) end.
(** [Vec::remove] counted from the top *)
Fixpoint remove_nth {A} (n : nat) (l : list A) : list A :=
  match l, n with [], _ => [] | _ :: r, O => r | x :: r, S k => x :: remove_nth k r end.
(** state.rs:56-124 [pick_roll] *)
Fixpoint pick_loop (depth : nat) (is_roll : bool) (atoms : list atom) (prev : option item) (l : list (string * state)) : outcome (list (string * state) * option item) :=
  match l with
  | [] => Ok ([], prev)
  | (v, s) :: r =>
    if holds (st_condition s) atoms then
      match nth_error (st_stack s) depth with
      | None => Err (EMsg 6)
      | Some i =>
        if consistent_names prev i
        then do (r', res) <- pick_loop depth is_roll atoms (Some i) r;
             Ok ((v, if is_roll then with_stack s false (remove_nth depth (st_stack s)) else s) :: r', res)
        else Err (EMsg 4)
      end
    else do (r', res) <- pick_loop depth is_roll atoms prev r; Ok ((v, s) :: r', res)
  end.
Definition vs_pick_roll (depth : nat) (is_roll : bool) (vs : vstates) : outcome (item * vstates) :=
  do (l, res) <- pick_loop depth is_roll (vs_atoms vs) None (vs_states vs);
  match res with Some i => Ok (i, VStates l (vs_atoms vs)) | None => Err (EMsg 5) end.
(** state.rs:126-182 [find_item] (the depth only; the item only names a variable) *)
Fixpoint find_loop (ident : string) (atoms : list atom) (prev : option nat) (l : list (string * state)) : outcome (option nat) :=
  match l with
  | [] => Ok prev
  | (v, s) :: r =>
    if holds (st_condition s) atoms then
      match position (fun i => String.eqb ident (it_name i)) (st_stack s) with
      | None => Err (EMsg 7)
      | Some d =>
        match prev with
        | Some d' => if Nat.eqb d' d then find_loop ident atoms (Some d) r else Err (EMsg 8)
        | None => find_loop ident atoms (Some d) r
        end
      end
    else find_loop ident atoms prev r
  end.
Definition vs_find (ident : string) (vs : vstates) : outcome nat :=
  do res <- find_loop ident (vs_atoms vs) None (vs_states vs);
  match res with Some d => Ok d | None => Err (EMsg 5) end.

(** ** generate.rs *)
(** generate.rs:15-23 [GenerateScript]: the parts of the state that decide what is generated *)
Record gen : Type := Gen { g_vs : vstates; g_n : nat }.
(** The generated op: its code or pushed data, the names recorded for the items pushed (main and alt stack), and
    the statement it comes from. *)
Inductive emitted_op : Type :=
| EmCode (c : opcode)            (* Op::Code(c) *)
| EmPush (o : op)                (* (expr).to_pushop() *)
| EmNumber (n : Z).              (* ((depth) + (offset)).to_pushop() *)
Record emitted : Type := Emitted { em_op : emitted_op; em_pushed : list (option string); em_alt_pushed : list (option string); em_src : stmt }.

(** generate.rs:881-885 [make_ident] *)
Definition id_name (n : nat) : string := ("__id_" ++ NilEmpty.string_of_uint (Nat.to_uint n))%string.
Definition make_ident (g : gen) : string * gen := (id_name (g_n g), Gen (g_vs g) (S (g_n g))).
Definition g_push (is_alt : bool) (i : item) (g : gen) : gen := Gen (vs_push is_alt i (g_vs g)) (g_n g).
Definition g_pop (is_alt : bool) (g : gen) : outcome (item * gen) :=
  do (i, vs) <- vs_pop is_alt (g_vs g); Ok (i, Gen vs (g_n g)).

(** generate.rs:289-328 [run_push] *)
Definition run_push (expr : op) (output_name : option string) (g : gen) : outcome (gen * list emitted) :=
  let (name, g1) := match output_name with Some n => (n, g) | None => make_ident g end in
  let g2 := g_push false (Item name (match output_name with None => true | _ => false end) None) g1 in
  Ok (g2, [Emitted (EmPush expr) [output_name] [] (SPush expr output_name)]).

(** generate.rs:812-837 [verify_item_name] *)
Definition verify_item_name (o : opcode_stmt) (i : item) : outcome unit :=
  match os_inputs o with
  | Some [n] => if String.eqb (input_text n) (it_name i) then Ok tt else Err (EMsg 10)
  | Some _ => Err (EMsg 9)
  | None => Ok tt
  end.
(** generate.rs:839-855 [update_item_name] *)
Definition update_item_name (o : opcode_stmt) (i : item) : outcome item :=
  match os_outputs o with
  | Some [n] => Ok (Item n (it_generated i) (it_integer i))
  | Some _ => Err (EMsg 11)
  | None => Ok i
  end.

(** generate.rs:435-439: pop [n] items; the result is bottom first (line 440) *)
Fixpoint pop_n (n : nat) (g : gen) (acc : list item) : outcome (list item * gen) :=
  match n with
  | O => Ok (acc, g)
  | S k => do (i, g') <- g_pop false g; pop_n k g' (i :: acc)
  end.
(** generate.rs:452-476: names given for the inputs *)
Fixpoint check_inputs (items : list item) (names : list opcode_input) : outcome unit :=
  match items, names with
  | i :: items', n :: names' =>
    match n with
    | InIdent ident =>
      if String.eqb ident "__" then check_inputs items' names'
      else if it_generated i then Err (EMsg 13)
      else if String.eqb ident (it_name i) then check_inputs items' names' else Err (EMsg 14)
    | InExpr _ _ => check_inputs items' names'
    end
  | _, _ => Ok tt
  end.
(** [input_items[idx].clone()]: indexing panics out of range *)
Definition index_item (items : list item) (idx : nat) : outcome item :=
  match nth_error items idx with Some i => Ok i | None => Panic end.
(** generate.rs:491-525: items pushed when the statement names its outputs; [idx] is the position of the first *)
Fixpoint named_outputs (c : opcode) (order : option (list nat)) (ins : list item) (idx : nat) (names : list string) (g : gen) : outcome (list item * gen) :=
  match names with
  | [] => Ok ([], g)
  | name :: r =>
    let (_, g1) := make_ident g in
    do i <- (if String.eqb name "__" then
               if opcode_retains_input c then index_item ins 0
               else match order with
                    | Some ord => match nth_error ord idx with Some k => index_item ins k | None => Panic end
                    | None => Err (EMsg 16)
                    end
             else Ok (Item name false None));
    do (is, g2) <- named_outputs c order ins (S idx) r g1;
    Ok (i :: is, g2)
  end.
(** generate.rs:529-536 *)
Fixpoint ordered_outputs (ins : list item) (order : list nat) (g : gen) : outcome (list item * gen) :=
  match order with
  | [] => Ok ([], g)
  | k :: r =>
    do i <- index_item ins k;
    let (_, g1) := make_ident g in
    do (is, g2) <- ordered_outputs ins r g1;
    Ok (i :: is, g2)
  end.
(** generate.rs:538-554 *)
Fixpoint fresh_outputs (c : opcode) (ins : list item) (n : nat) (g : gen) : outcome (list item * gen) :=
  match n with
  | O => Ok ([], g)
  | S k =>
    let (ident, g1) := make_ident g in
    do i <- (if opcode_retains_input c then index_item ins 0 else Ok (Item ident true None));
    do (is, g2) <- fresh_outputs c ins k g1;
    Ok (i :: is, g2)
  end.
(** generate.rs:424-621 [run_other_opcode].  The generated code calls [func::<opcode>]; where there is no such
    function rustc rejects it ([EMsg 99]). *)
Definition run_other_opcode (c : opcode) (o : opcode_stmt) (g : gen) : outcome (gen * list emitted) :=
  do b <- opcode_behavior c;
  do (ins, g1) <- pop_n (length (b_input_types b)) g [];
  do _ <- match os_inputs o with
          | Some names => if Nat.eqb (length ins) (length names) then check_inputs ins names else Err (EMsg 12)
          | None => Ok tt
          end;
  do (pushed, g2) <-
    match os_outputs o with
    | Some names => if Nat.eqb (length names) (length (b_output_types b)) then named_outputs c (b_output_order b) ins 0 names g1 else Err (EMsg 15)
    | None => match b_output_order b with
              | Some order => ordered_outputs ins order g1
              | None => fresh_outputs c ins (length (b_output_types b)) g1
              end
    end;
  if func_exists c then
    Ok (fold_left (fun g i => g_push false i g) pushed g2, [Emitted (EmCode c) (map name_tokens pushed) [] (SOpcode o)])
  else Err (EMsg 99).

(** generate.rs:643-681: the common part of [depth_of] and [depth_of_offset] *)
Definition run_depth_of (o : opcode_stmt) (g : gen) (ident : string) (offset : Z) : outcome (gen * list emitted) :=
  do depth <- vs_find ident (g_vs g);
  let (name, g1) := match os_outputs o with Some [n] => (n, g) | _ => make_ident g end in
  do k <- integer_new (Z.of_nat depth);
  Ok (g_push false (Item name (match os_outputs o with None => true | _ => false end) (Some k)) g1,
      [Emitted (EmNumber (k + offset)) [match os_outputs o with Some [n] => Some n | _ => None end] [] (SOpcode o)]).
(** generate.rs:623-717 [run_opcode_function] *)
Definition run_opcode_function (o : opcode_stmt) (g : gen) : outcome (gen * list emitted) :=
  if String.eqb (os_ident o) "depth_of" then
    match os_inputs o with Some [InIdent ident] => run_depth_of o g ident 0 | _ => Err (EMsg 17) end
  else if String.eqb (os_ident o) "depth_of_offset" then
    match os_inputs o with Some [InIdent ident; InExpr _ offset] => run_depth_of o g ident offset | _ => Err (EMsg 17) end
  else if String.eqb (os_ident o) "transmute" then
    match os_inputs o with
    | Some [InIdent ident; _] =>
      match os_outputs o with
      | Some [out] => if String.eqb out ident then do _ <- vs_find ident (g_vs g); Ok (g, []) else Err (EMsg 18)
      | _ => do _ <- vs_find ident (g_vs g); Ok (g, [])
      end
    | _ => Err (EMsg 19)
    end
  else Err (EMsg 20).

(** generate.rs:330-422 [run_opcode] *)
Definition run_opcode (o : opcode_stmt) (g : gen) : outcome (gen * list emitted) :=
  match opcode_by_name (os_ident o) with
  | Some OP_TOALTSTACK =>
    do (i, g1) <- g_pop false g;
    do _ <- verify_item_name o i;
    do i' <- update_item_name o i;
    Ok (g_push true i' g1, [Emitted (EmCode OP_TOALTSTACK) [] [name_tokens i'] (SOpcode o)])
  | Some OP_FROMALTSTACK =>
    do (i, g1) <- g_pop true g;
    do _ <- verify_item_name o i;
    do i' <- update_item_name o i;
    Ok (g_push false i' g1, [Emitted (EmCode OP_FROMALTSTACK) [name_tokens i'] [] (SOpcode o)])
  | Some ((OP_PICK | OP_ROLL) as c) =>
    do (d, g1) <- g_pop false g;
    do _ <- verify_item_name o d;
    do depth <- match it_integer d with
                | Some k => if k <? 0 then Err (EMsg 21) else Ok (Z.to_nat k)
                | None => Ok O
                end;
    do (i, vs) <- vs_pick_roll depth (opcode_eqb c OP_ROLL) (g_vs g1);
    do i' <- update_item_name o i;
    Ok (g_push false i' (Gen vs (g_n g1)), [Emitted (EmCode c) [name_tokens i'] [] (SOpcode o)])
  | Some c => run_other_opcode c o g
  | None => run_opcode_function o g
  end.

(** generate.rs:727-741: the variable of an OP_IF *)
Definition if_variable (o : opcode_stmt) : option string :=
  match os_inputs o with Some (InIdent s :: _) => Some s | _ => None end.
Definition with_atom (a : atom) (g : gen) : gen := Gen (VStates (vs_states (g_vs g)) (vs_atoms (g_vs g) ++ [a])) (g_n g).
(** generate.rs:773-782: which branch's state each variant keeps.  The two lists have the same variants in the same order. *)
Fixpoint merge_states (atoms_if atoms_else : list atom) (after_then after_else : list (string * state)) : list (string * state) :=
  match after_then, after_else with
  | (_, st) :: rt, (v, se) :: re =>
    (v, if holds (st_condition se) atoms_if && negb (holds (st_condition se) atoms_else) then st else se) :: merge_states atoms_if atoms_else rt re
  | _, _ => []
  end.
(** generate.rs:269-287 [run_stmt] and 719-791 [run_if] *)
Fixpoint run_stmt (s : stmt) (g : gen) {struct s} : outcome (gen * list emitted) :=
  let run_stmts :=
    fix run_stmts (l : list stmt) (g : gen) {struct l} : outcome (gen * list emitted) :=
      match l with
      | [] => Ok (g, [])
      | s :: r => do (g1, c1) <- run_stmt s g; do (g2, c2) <- run_stmts r g1; Ok (g2, c1 ++ c2)
      end in
  match s with
  | SForLoop _ => Err (EMsg 22)
  | SRustIf _ _ => Err (EMsg 23)
  | SPush e out => run_push e out g
  | SOpcode o => run_opcode o g
  | SScriptIf if_opcode then_stmts else_opcode else_stmts endif_opcode =>
    do (g0, c_if) <- run_opcode if_opcode g;
    match if_variable if_opcode with
    | None => Err (EMsg 24)
    | Some var =>
      let atoms := vs_atoms (g_vs g0) in
      do (g1, c_then) <- run_stmts then_stmts (with_atom (Atom var true) g0);
      do (g2, c_else_op) <- match else_opcode with Some o => run_opcode o g1 | None => Ok (g1, []) end;
      do (g3, c_else) <- run_stmts else_stmts (with_atom (Atom var false) (Gen (g_vs g0) (g_n g2)));
      do (g4, c_endif) <- run_opcode endif_opcode g3;
      Ok (Gen (VStates (merge_states (atoms ++ [Atom var true]) (atoms ++ [Atom var false]) (vs_states (g_vs g2)) (vs_states (g_vs g4))) atoms) (g_n g4),
          c_if ++ c_then ++ c_else_op ++ c_else ++ c_endif)
    end
  end.
Fixpoint run_stmts (l : list stmt) (g : gen) : outcome (gen * list emitted) :=
  match l with
  | [] => Ok (g, [])
  | s :: r => do (g1, c1) <- run_stmt s g; do (g2, c2) <- run_stmts r g1; Ok (g2, c1 ++ c2)
  end.

(** ir.rs:5-17, 24-27, 40-46: a parsed script *)
Record script_input : Type := ScriptInput { in_ident : string; in_variants : option (list string) }.
Record macro_script : Type := MacroScript { ms_name : string; ms_variants : list (string * predicate); ms_inputs : list script_input; ms_stmts : list stmt }.
(** generate.rs:48-66 *)
Definition initial_states (m : macro_script) : list (string * state) :=
  match ms_variants m with
  | [] => [(ms_name m, State [] [] [])]
  | vs => map (fun '(v, p) => (v, State p [] [])) vs
  end.
Fixpoint push_variant (v : string) (i : item) (l : list (string * state)) : outcome (list (string * state)) :=
  match l with
  | [] => Err (EMsg 25)
  | (w, s) :: r => if String.eqb w v then Ok ((w, with_stack s false (i :: st_stack s)) :: r) else do r' <- push_variant v i r; Ok ((w, s) :: r')
  end.
(** generate.rs:99-118.  A script without variants has a state (under the name of its input struct) but no entry in
    [enum_variant_fields], so the [unwrap] in line 110 panics. *)
Fixpoint push_variants (enum : bool) (vs : list string) (i : item) (l : list (string * state)) : outcome (list (string * state)) :=
  match vs with [] => Ok l | v :: r => do l' <- push_variant v i l; if enum then push_variants enum r i l' else Panic end.
(** generate.rs:67-131: the inputs *)
Fixpoint run_inputs (enum : bool) (ins : list script_input) (vs : vstates) : outcome vstates :=
  match ins with
  | [] => Ok vs
  | i :: r =>
    let it := Item (in_ident i) false None in
    do vs' <- match in_variants i with
              | Some names => do l <- push_variants enum names it (vs_states vs); Ok (VStates l (vs_atoms vs))
              | None => Ok (vs_push false it vs)
              end;
    run_inputs enum r vs'
  end.
Definition has_variants (m : macro_script) : bool := match ms_variants m with [] => false | _ => true end.
(** generate.rs:33-267 [run_script]: the final states and the generated ops of the script body *)
Definition run_script (m : macro_script) : outcome (gen * list emitted) :=
  do vs <- run_inputs (has_variants m) (ms_inputs m) (VStates (initial_states m) []);
  run_stmts (ms_stmts m) (Gen vs 0).
(** generate.rs:85-91, 99-131, 167-239: the pushes of the inputs that [Ops::ops] produces for a variant, first pushed first.
    Without variants the inputs become a struct and all its fields are pushed, whatever their [#[variant]] attributes say. *)
Definition occurrences (v : string) (l : list string) : nat := length (filter (String.eqb v) l).
Definition variant_pushes (m : macro_script) (v : string) : list string :=
  match ms_variants m with
  | [] => map in_ident (ms_inputs m)
  | _ => concat (map (fun i => match in_variants i with None => [in_ident i] | Some vs => repeat (in_ident i) (occurrences v vs) end) (ms_inputs m))
  end.

(** ** parse.rs:190-228 [parse_predicate] *)
(** Texts are lists of Unicode scalar values; [alnum] is [char::is_alphanumeric].
    [str::split] with a two-character pattern: *)
Fixpoint split2 (c : Z) (cur s : list Z) : list (list Z) :=
  match s with
  | [] => [rev cur]
  | x :: t =>
    match t with
    | y :: r => if (x =? c) && (y =? c) then rev cur :: split2 c [] r else split2 c (x :: cur) t
    | [] => [rev (x :: cur)]
    end
  end.
(** [&predicate_atom[..1]] panics when the first character takes more than one byte *)
Definition parse_atom (alnum : Z -> bool) (s : list Z) : outcome (bool * list Z) :=
  match s with
  | [] => Err (EMsg 30)
  | x :: r =>
    if 128 <=? x then Panic
    else
      let is_negated := x =? 33 in
      let name := if is_negated then r else s in
      match name with
      | [] => Err (EMsg 30)
      | _ => if forallb (fun c => alnum c || (c =? 95)) name then Ok (negb is_negated, name) else Err (EMsg 31)
      end
  end.
Definition parse_predicate (alnum : Z -> bool) (s : list Z) : outcome (list (list (bool * list Z))) :=
  omap (fun conjunction => omap (parse_atom alnum) (split2 38 [] conjunction)) (split2 124 [] s).
