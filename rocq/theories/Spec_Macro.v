(** Specification for the script macro: bracket structure of a script body, meaning of variant predicates, and an
    independent abstract script machine whose stack items carry the programmer's names. *)
From Verif Require Import Base Spec_Encoding Model_ByteArray Model_Opcode Model_Script Model_Behavior Model_Macro.
Local Open Scope string_scope.
Local Open Scope list_scope.
Local Open Scope Z_scope.

(** ** Bracket structure *)
Definition is_if (o : opcode_stmt) : Prop := os_ident o = "OP_IF" \/ os_ident o = "OP_NOTIF".
Definition is_bracket (o : opcode_stmt) : Prop := is_if o \/ os_ident o = "OP_ELSE" \/ os_ident o = "OP_ENDIF".
(** The statements of a tree, as written. *)
Fixpoint written (s : stmt) : list stmt :=
  match s with
  | SScriptIf i t e es en =>
    SOpcode i :: concat (map written t) ++ (match e with Some o => [SOpcode o] | None => [] end) ++ concat (map written es) ++ [SOpcode en]
  | _ => [s]
  end.
Definition body (l : list stmt) : list stmt := concat (map written l).
(** Proper trees: brackets are where they should be; without an ELSE there is no else-branch. *)
Inductive proper : stmt -> Prop :=
| PrPush e n : proper (SPush e n)
| PrOp o : ~ is_bracket o -> proper (SOpcode o)
| PrFor b : proper (SForLoop b)
| PrRustIf a b : proper (SRustIf a b)
| PrIf i t e es en : is_if i -> Forall proper t -> (forall o, e = Some o -> os_ident o = "OP_ELSE") -> (e = None -> es = []) ->
    Forall proper es -> os_ident en = "OP_ENDIF" -> proper (SScriptIf i t e es en).
(** The nestings the parser handles: an IF directly inside a then-branch has no ELSE, an IF directly inside an
    else-branch has one. *)
Definition else_free (s : stmt) : Prop := match s with SScriptIf _ _ (Some _) _ _ => False | _ => True end.
Definition else_full (s : stmt) : Prop := match s with SScriptIf _ _ None _ _ => False | _ => True end.
Inductive nesting_ok : stmt -> Prop :=
| NkPush e n : nesting_ok (SPush e n)
| NkOp o : nesting_ok (SOpcode o)
| NkFor b : nesting_ok (SForLoop b)
| NkRustIf a b : nesting_ok (SRustIf a b)
| NkIf i t e es en : Forall nesting_ok t -> Forall else_free t -> Forall nesting_ok es -> Forall else_full es -> nesting_ok (SScriptIf i t e es en).
(** Bracket depth along a body: [None] on ELSE or ENDIF outside any IF. *)
Fixpoint depth_after (n : nat) (l : list stmt) : option nat :=
  match l with
  | [] => Some n
  | SOpcode o :: r =>
    if String.eqb (os_ident o) "OP_IF" || String.eqb (os_ident o) "OP_NOTIF" then depth_after (S n) r
    else if String.eqb (os_ident o) "OP_ELSE" then match n with O => None | _ => depth_after n r end
    else if String.eqb (os_ident o) "OP_ENDIF" then match n with O => None | S k => depth_after k r end
    else depth_after n r
  | _ :: r => depth_after n r
  end.

(** What the parser does in general: a statement goes into the branch opened by the last IF or ELSE written
    before it, wherever that was.  [misplace] gives the tree the parser builds from what is written for a tree and
    whether the last bracket opened a then-branch. *)
Definition deal (acc : list stmt * list stmt * bool) (r : stmt * option bool) : list stmt * list stmt * bool :=
  let '(t, e, flag) := acc in
  let flag' := match snd r with Some f => f | None => flag end in
  if flag' then (t ++ [fst r], e, flag') else (t, e ++ [fst r], flag').
Fixpoint misplace (s : stmt) : stmt * option bool :=
  match s with
  | SScriptIf i t e es en =>
    let '(t1, e1, f1) := fold_left deal (map misplace t) ([], [], true) in
    let '(t2, e2, f2) := fold_left deal (map misplace es) (t1, e1, match e with Some _ => false | None => f1 end) in
    (SScriptIf i t2 e e2 en, Some f2)
  | _ => (s, None)
  end.

(** ** Variant predicates *)
(** A valuation satisfies a predicate: some conjunction has all its literals true (the empty predicate stands for
    "always"). *)
Definition valuation : Type := string -> bool.
Definition literal (s : valuation) (a : atom) : Prop := s (var_name a) = is_positive a.
Definition satisfies (s : valuation) (p : predicate) : Prop := p = [] \/ exists c, In c p /\ forall a, In a c -> literal s a.
(** A set of atoms without contradiction. *)
Definition consistent (l : list atom) : Prop := forall a b, In a l -> In b l -> var_name a = var_name b -> is_positive a = is_positive b.
(** The text of a predicate: conjunctions joined by "||", literals joined by "&&", "!" for negation. *)
Fixpoint join (sep : list Z) (l : list (list Z)) : list Z :=
  match l with [] => [] | [x] => x | x :: r => x ++ sep ++ join sep r end.
Definition literal_text (l : bool * list Z) : list Z := (if fst l then [] else [33]) ++ snd l.
Definition predicate_text (p : list (list (bool * list Z))) : list Z :=
  join [124; 124] (map (fun c => join [38; 38] (map literal_text c)) p).
Definition name_char (alnum : Z -> bool) (c : Z) : Prop := alnum c = true \/ c = 95.
(** Literal names: non-empty, of letters, digits and underscores, first character ASCII. *)
Definition literal_ok (alnum : Z -> bool) (l : bool * list Z) : Prop :=
  Forall (name_char alnum) (snd l) /\ exists x r, snd l = x :: r /\ (fst l = true -> x < 128).
Definition predicate_ok (alnum : Z -> bool) (p : list (list (bool * list Z))) : Prop :=
  p <> [] /\ Forall (fun c => c <> [] /\ Forall (literal_ok alnum) c) p.

(** ** The labelled script machine *)
(** A stack item of a running script, with the name the script's author last gave it (if any). *)
Record ritem : Type := RItem { r_label : option string; r_value : list Z }.
(** Main stack, alt stack (heads are tops) and the stack of conditionals (innermost first). *)
Record config : Type := Config { c_main : list ritem; c_alt : list ritem; c_exec : list bool }.
Definition active (c : config) : bool := forallb (fun b => b) (c_exec c).
(** The author's names for the outputs of a statement, written bottom to top; ["__"] leaves a name as it is. *)
Fixpoint relabel (names : list string) (s : list ritem) : list ritem :=
  match names, s with
  | n :: ns, i :: r => (if String.eqb n "__" then i else RItem (Some n) (r_value i)) :: relabel ns r
  | _, _ => s
  end.
Definition out_names (e : emitted) : list string :=
  match em_src e with SOpcode o => match os_outputs o with Some l => rev l | None => [] end | _ => [] end.
Definition in_names (e : emitted) : list opcode_input :=
  match em_src e with SOpcode o => match os_inputs o with Some l => rev l | None => [] end | _ => [] end.
(** Opcodes that only rearrange the stack. *)
Definition shuffle {A} (c : opcode) (s : list A) : option (list A) :=
  match c, s with
  | OP_2DROP, _ :: _ :: r => Some r
  | OP_2DUP, x2 :: x1 :: r => Some (x2 :: x1 :: x2 :: x1 :: r)
  | OP_3DUP, x3 :: x2 :: x1 :: r => Some (x3 :: x2 :: x1 :: x3 :: x2 :: x1 :: r)
  | OP_2OVER, x4 :: x3 :: x2 :: x1 :: r => Some (x2 :: x1 :: x4 :: x3 :: x2 :: x1 :: r)
  | OP_2ROT, x6 :: x5 :: x4 :: x3 :: x2 :: x1 :: r => Some (x2 :: x1 :: x6 :: x5 :: x4 :: x3 :: r)
  | OP_2SWAP, x4 :: x3 :: x2 :: x1 :: r => Some (x2 :: x1 :: x4 :: x3 :: r)
  | OP_DROP, _ :: r => Some r
  | OP_DUP, x :: r => Some (x :: x :: r)
  | OP_NIP, x2 :: x1 :: r => Some (x2 :: r)
  | OP_OVER, x2 :: x1 :: r => Some (x1 :: x2 :: x1 :: r)
  | OP_ROT, x3 :: x2 :: x1 :: r => Some (x1 :: x3 :: x2 :: r)
  | OP_SWAP, x2 :: x1 :: r => Some (x1 :: x2 :: r)
  | OP_TUCK, x2 :: x1 :: r => Some (x2 :: x1 :: x2 :: r)
  | _, _ => None
  end.
Definition is_shuffle (c : opcode) : bool :=
  match c with
  | OP_2DROP | OP_2DUP | OP_3DUP | OP_2OVER | OP_2ROT | OP_2SWAP | OP_DROP | OP_DUP | OP_NIP | OP_OVER | OP_ROT | OP_SWAP | OP_TUCK => true
  | _ => false
  end.
(** Opcodes that consume items and put new, unnamed ones in their place: how many of each. *)
Definition arity (c : opcode) : option (nat * nat) :=
  match c with
  | OP_0 | OP_1NEGATE | OP_1 | OP_2 | OP_3 | OP_4 | OP_5 | OP_6 | OP_7 | OP_8 | OP_9 | OP_10 | OP_11 | OP_12 | OP_13 | OP_14 | OP_15 | OP_16
  | OP_DEPTH => Some (0, 1)
  | OP_NOP | OP_NOP1 | OP_NOP4 | OP_NOP5 | OP_NOP6 | OP_NOP7 | OP_NOP8 | OP_NOP9 | OP_NOP10 | OP_CODESEPARATOR | OP_RETURN => Some (0, 0)
  | OP_VERIFY => Some (1, 0)
  | OP_BIN2NUM | OP_REVERSEBYTES | OP_1ADD | OP_1SUB | OP_NEGATE | OP_ABS | OP_NOT | OP_0NOTEQUAL
  | OP_RIPEMD160 | OP_SHA1 | OP_SHA256 | OP_HASH160 | OP_HASH256 => Some (1, 1)
  | OP_CAT | OP_NUM2BIN | OP_AND | OP_OR | OP_XOR | OP_EQUAL | OP_ADD | OP_SUB | OP_DIV | OP_MOD | OP_BOOLAND | OP_BOOLOR
  | OP_NUMEQUAL | OP_NUMNOTEQUAL | OP_LESSTHAN | OP_GREATERTHAN | OP_LESSTHANOREQUAL | OP_GREATERTHANOREQUAL | OP_MIN | OP_MAX | OP_CHECKSIG => Some (2, 1)
  | OP_SPLIT => Some (2, 2)
  | OP_EQUALVERIFY | OP_NUMEQUALVERIFY | OP_CHECKSIGVERIFY => Some (2, 0)
  | OP_WITHIN | OP_CHECKDATASIG => Some (3, 1)
  | OP_CHECKDATASIGVERIFY => Some (3, 0)
  | _ => None
  end%nat.
Definition truthy (v : list Z) : bool :=
  (fix go (l : list Z) : bool := match l with [] => false | [b] => negb ((b =? 0) || (b =? 128)) | b :: r => negb (b =? 0) || go r end) v.
(** What an executed op does to the two stacks.  Values of computed items are arbitrary, except that the number pushed for a
    [depth_of] is that number. *)
Inductive op_step (e : emitted) : list ritem -> list ritem -> list ritem -> list ritem -> Prop :=
| StPush o v s a : em_op e = EmPush o ->
    op_step e s a (RItem (match em_src e with SPush _ n => n | _ => None end) v :: s) a
| StNumber k v s a : em_op e = EmNumber k -> script_num v = k ->
    op_step e s a (relabel (out_names e) (RItem None v :: s)) a
| StShuffle c s s' a : em_op e = EmCode c -> shuffle c s = Some s' -> op_step e s a (relabel (out_names e) s') a
| StCompute c n m used made s a : em_op e = EmCode c -> arity c = Some (n, m) -> length used = n -> length made = m -> Forall (fun i => r_label i = None) made ->
    op_step e (used ++ s) a (relabel (out_names e) (made ++ s)) a
| StSize i v s a : em_op e = EmCode OP_SIZE -> op_step e (i :: s) a (relabel (out_names e) (RItem None v :: i :: s)) a
| StKeep c i s a : em_op e = EmCode c -> c = OP_CHECKLOCKTIMEVERIFY \/ c = OP_CHECKSEQUENCEVERIFY ->
    op_step e (i :: s) a (relabel (out_names e) (i :: s)) a
| StToAlt i s a : em_op e = EmCode OP_TOALTSTACK -> op_step e (i :: s) a s (relabel (out_names e) (i :: a))
| StFromAlt i s a : em_op e = EmCode OP_FROMALTSTACK -> op_step e s (i :: a) (relabel (out_names e) (i :: s)) a
| StPick i d x s a : em_op e = EmCode OP_PICK -> script_num (r_value i) = Z.of_nat d -> nth_error s d = Some x ->
    op_step e (i :: s) a (relabel (out_names e) (x :: s)) a
| StRoll i below x above a : em_op e = EmCode OP_ROLL -> script_num (r_value i) = Z.of_nat (length above) ->
    op_step e (i :: above ++ x :: below) a (relabel (out_names e) (x :: above ++ below)) a.
Definition is_control (o : emitted_op) : Prop := o = EmCode OP_IF \/ o = EmCode OP_ELSE \/ o = EmCode OP_ENDIF.
(** One op, in executions in which every conditional on an item named [n] goes the way the valuation says. *)
Inductive machine_step (sigma : valuation) (e : emitted) : config -> config -> Prop :=
| MsIf i s a ex : em_op e = EmCode OP_IF -> forallb (fun b => b) ex = true -> (forall n, r_label i = Some n -> sigma n = truthy (r_value i)) ->
    machine_step sigma e (Config (i :: s) a ex) (Config s a (truthy (r_value i) :: ex))
| MsIfSkipped s a ex : em_op e = EmCode OP_IF -> forallb (fun b => b) ex = false -> machine_step sigma e (Config s a ex) (Config s a (false :: ex))
| MsElse s a b ex : em_op e = EmCode OP_ELSE -> machine_step sigma e (Config s a (b :: ex)) (Config s a (negb b :: ex))
| MsEndIf s a b ex : em_op e = EmCode OP_ENDIF -> machine_step sigma e (Config s a (b :: ex)) (Config s a ex)
| MsOp s a s' a' ex : ~ is_control (em_op e) -> forallb (fun b => b) ex = true -> op_step e s a s' a' -> machine_step sigma e (Config s a ex) (Config s' a' ex)
| MsSkipped s a ex : ~ is_control (em_op e) -> forallb (fun b => b) ex = false -> machine_step sigma e (Config s a ex) (Config s a ex).
(** Executions: what is left to run and where the machine is. *)
Inductive reaches (sigma : valuation) : list emitted * config -> list emitted * config -> Prop :=
| ReRefl x : reaches sigma x x
| ReStep e rest c c' y : machine_step sigma e c c' -> reaches sigma (rest, c') y -> reaches sigma (e :: rest, c) y.

(** The op about to run finds what it needs on the stacks. *)
Definition enough (c : opcode) (s a : list ritem) : Prop :=
  if is_shuffle c then shuffle c s <> None
  else match c with
       | OP_IF | OP_TOALTSTACK | OP_SIZE | OP_CHECKLOCKTIMEVERIFY | OP_CHECKSEQUENCEVERIFY => s <> []
       | OP_FROMALTSTACK => a <> []
       | OP_PICK | OP_ROLL => exists i r d, s = i :: r /\ script_num (r_value i) = Z.of_nat d /\ (d < length r)%nat
       | OP_ELSE | OP_ENDIF => True
       | _ => exists n m, arity c = Some (n, m) /\ (n <= length s)%nat
       end.
(** The names the author wrote for the op's inputs (top of stack first) are the names of the items it takes. *)
Fixpoint declared (names : list opcode_input) (s : list ritem) : Prop :=
  match names with
  | [] => True
  | n :: ns =>
    match s with
    | [] => False
    | i :: r => (forall x, n = InIdent x -> x <> "__" -> r_label i = Some x) /\ declared ns r
    end
  end.
(** How many items lie above the topmost item named [x]. *)
Fixpoint depth_of_label (x : string) (s : list ritem) : option nat :=
  match s with
  | [] => None
  | i :: r => if match r_label i with Some n => String.eqb x n | None => false end then Some O
              else match depth_of_label x r with Some d => Some (S d) | None => None end
  end.
Definition good_op (e : emitted) (s a : list ritem) : Prop :=
  match em_op e with
  | EmPush _ => True
  | EmNumber k => exists o x r d, em_src e = SOpcode o /\ os_inputs o = Some (InIdent x :: r) /\ depth_of_label x s = Some d /\ k = Z.of_nat d
  | EmCode c => enough c s a /\ declared (in_names e) (if opcode_eqb c OP_FROMALTSTACK then a else s)
  end.
Definition good (e : emitted) (c : config) : Prop :=
  (em_op e = EmCode OP_ELSE \/ em_op e = EmCode OP_ENDIF -> c_exec c <> []) /\ (active c = true -> good_op e (c_main c) (c_alt c)).
(** The names recorded in the generated script for the items an op pushes (bottom to top) are their names. *)
Fixpoint recorded (names : list (option string)) (s : list ritem) : Prop :=
  match names with
  | [] => True
  | n :: ns => match s with [] => False | i :: r => (forall x, n = Some x -> r_label i = Some x) /\ recorded ns r end
  end.
Definition records (e : emitted) (c : config) : Prop := recorded (rev (em_pushed e)) (c_main c) /\ recorded (rev (em_alt_pushed e)) (c_alt c).

(** ** Conditions on the scripts *)
(** The name the tracker has for an item, apart from names it made up. *)
Definition made_up (s : string) : bool := String.prefix "__id_" s.
Definition label_of (i : item) : option string := if made_up (it_name i) then None else Some (it_name i).
(** Hygiene of one written statement. *)
Definition real_name (s : string) : Prop := made_up s = false /\ s <> "__".
Definition clean (s : stmt) : Prop :=
  match s with
  | SPush _ n => forall x, n = Some x -> real_name x
  | SOpcode o =>
    (forall l x, os_inputs o = Some l -> In (InIdent x) l -> made_up x = false) /\
    (forall l x, os_outputs o = Some l -> In x l -> made_up x = false) /\
    (os_ident o = "OP_IF" -> os_inputs o <> Some [InIdent "__"]) /\
    (os_ident o = "OP_SIZE" -> exists x y, os_outputs o = Some [x; y] /\ y <> "__") /\
    (In (os_ident o) ["OP_TOALTSTACK"; "OP_FROMALTSTACK"; "OP_PICK"; "OP_ROLL"] -> os_outputs o <> Some ["__"]) /\
    (In (os_ident o) ["depth_of"; "depth_of_offset"] -> os_outputs o = None \/ exists x, os_outputs o = Some [x] /\ x <> "__") /\
    (os_ident o = "depth_of_offset" -> forall l t z, os_inputs o = Some l -> In (InExpr t z) l -> z = 0)
  | _ => True
  end.
(** Same name and same known number. *)
Definition same_item (i j : item) : Prop := label_of i = label_of j /\ it_integer i = it_integer j.
(** The variants still possible agree on the item at depth [k]. *)
Definition possible (g : gen) (s : state) : Prop := exists v, In (v, s) (vs_states (g_vs g)) /\ holds (st_condition s) (vs_atoms (g_vs g)) = true.
Definition agree_at (is_alt : bool) (k : nat) (g : gen) : Prop :=
  forall s t i j, possible g s -> possible g t -> nth_error (the_stack s is_alt) k = Some i -> nth_error (the_stack t is_alt) k = Some j -> same_item i j.
Definition agree (o : opcode_stmt) (g : gen) : Prop :=
  match opcode_by_name (os_ident o) with
  | Some OP_FROMALTSTACK => agree_at true 0 g
  | Some (OP_PICK | OP_ROLL) =>
    agree_at false 0 g /\ forall s i d, possible g s -> nth_error (st_stack s) 0 = Some i -> it_integer i = Some d -> agree_at false (S (Z.to_nat d)) g
  | Some c => forall b k, opcode_behavior c = Ok b -> (k < length (b_input_types b))%nat -> agree_at false k g
  | None => True
  end.
(** PICK and ROLL take a number that came from a [depth_of]. *)
Definition known_depth (o : opcode_stmt) (g : gen) : Prop :=
  os_ident o = "OP_PICK" \/ os_ident o = "OP_ROLL" -> forall s i, possible g s -> nth_error (st_stack s) 0 = Some i -> exists d, it_integer i = Some d.
Definition coherent (o : opcode_stmt) (g : gen) : Prop := agree o g /\ known_depth o g.
(** Both branches of a conditional leave the same stacks, for the variants that may take either. *)
Definition same_stacks (s t : state) : Prop := Forall2 same_item (st_stack s) (st_stack t) /\ Forall2 same_item (st_alt s) (st_alt t).
Definition balanced (var : string) (atoms : list atom) (g_then g_else : gen) : Prop :=
  forall k v s w t, nth_error (vs_states (g_vs g_then)) k = Some (v, s) -> nth_error (vs_states (g_vs g_else)) k = Some (w, t) ->
  holds (st_condition s) (atoms ++ [Atom var true]) = true -> holds (st_condition t) (atoms ++ [Atom var false]) = true -> same_stacks s t.
(** [P] at every opcode of the script as the macro runs it, and every conditional balanced. *)
Fixpoint along (P : opcode_stmt -> gen -> Prop) (s : stmt) (g : gen) {struct s} : Prop :=
  let all :=
    fix all (l : list stmt) (g : gen) {struct l} : Prop :=
      match l with
      | [] => True
      | s :: r => along P s g /\ forall g1 c1, run_stmt s g = Ok (g1, c1) -> all r g1
      end in
  match s with
  | SOpcode o => P o g
  | SScriptIf i t e es en =>
    P i g /\
    forall g0 c0 var, run_opcode i g = Ok (g0, c0) -> if_variable i = Some var ->
      let atoms := vs_atoms (g_vs g0) in
      all t (with_atom (Atom var true) g0) /\
      forall g1 c1 g2 c2, run_stmts t (with_atom (Atom var true) g0) = Ok (g1, c1) -> match e with Some o => run_opcode o g1 | None => Ok (g1, []) end = Ok (g2, c2) ->
        all es (with_atom (Atom var false) (Gen (g_vs g0) (g_n g2))) /\
        forall g3 c3, run_stmts es (with_atom (Atom var false) (Gen (g_vs g0) (g_n g2))) = Ok (g3, c3) -> balanced var atoms g1 g3
  | _ => True
  end.
Fixpoint all_along (P : opcode_stmt -> gen -> Prop) (l : list stmt) (g : gen) : Prop :=
  match l with [] => True | s :: r => along P s g /\ forall g1 c1, run_stmt s g = Ok (g1, c1) -> all_along P r g1 end.
(** The variants of a script with their predicates, in order; a script without variants has one, always possible. *)
Definition variants (m : macro_script) : list (string * predicate) := match ms_variants m with [] => [(ms_name m, [])] | vs => vs end.
(** [P] at every opcode from the state in which the body starts. *)
Definition script_along (P : opcode_stmt -> gen -> Prop) (m : macro_script) : Prop :=
  forall vs, run_inputs (has_variants m) (ms_inputs m) (VStates (initial_states m) []) = Ok vs -> all_along P (ms_stmts m) (Gen vs 0).
(** Statements that move items between stacks only without renaming them and never by a computed depth. *)
Definition static (s : stmt) : Prop :=
  match s with
  | SOpcode o => ~ In (os_ident o) ["OP_PICK"; "OP_ROLL"; "depth_of"; "depth_of_offset"] /\ (In (os_ident o) ["OP_TOALTSTACK"; "OP_FROMALTSTACK"] -> os_outputs o = None)
  | _ => True
  end.
(** Hygiene of a whole script. *)
Definition script_clean (m : macro_script) : Prop :=
  Forall proper (ms_stmts m) /\ Forall clean (body (ms_stmts m)) /\ Forall (fun i => made_up (in_ident i) = false /\ (ms_variants m = [] -> in_variants i = None)) (ms_inputs m) /\ NoDup (map fst (variants m)).
(** An execution of [code] from [main] goes as the macro says: every op finds what it needs and what the author wrote, the names
    recorded for pushed items are theirs, and at the end conditionals are closed and the stacks are labelled as in [s]. *)
Definition follows (sigma : valuation) (code : list emitted) (main : list ritem) (s : state) : Prop :=
  forall rest c, reaches sigma (code, Config main [] []) (rest, c) ->
  match rest with
  | e :: _ => good e c /\ forall c', machine_step sigma e c c' -> active c = true -> records e c'
  | [] => c_exec c = [] /\ map r_label (c_main c) = map label_of (st_stack s) /\ map r_label (c_alt c) = map label_of (st_alt s)
  end.
(** Statements that generate an op: all but [transmute]. *)
Definition emits (s : stmt) : bool := match s with SOpcode o => negb (String.eqb (os_ident o) "transmute") | _ => true end.
(** The op generated for a statement. *)
Definition op_right (e : emitted) : Prop :=
  match em_src e with
  | SPush x n => em_op e = EmPush x
  | SOpcode o => match opcode_by_name (os_ident o) with Some c => em_op e = EmCode c | None => exists n, em_op e = EmNumber n end
  | _ => False
  end.
(** A script the macro accepts although some execution of what it generates does not go as it says. *)
Definition misled (m : macro_script) : Prop :=
  exists g code v p sigma main, run_script m = Ok (g, code) /\ In (v, p) (variants m) /\ satisfies sigma p /\ map r_label main = rev (map Some (variant_pushes m v)) /\
  forall s, In (v, s) (vs_states (g_vs g)) -> ~ follows sigma code main s.
