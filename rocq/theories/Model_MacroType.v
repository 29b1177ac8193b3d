(** Model of the part of the script macro that lets rustc check the types of a script: the variables of the generated code
    (state.rs, generate.rs) and rustc's check of them.  This repeats the tracker of Model_Macro with stack items that also carry [ident],
    the variable of the generated code that stands for them, and returns the generated [let]s and calls; that it otherwise does what
    Model_Macro does is theorem C57_same_code.  Not modelled: that rustc also rejects using a variable after it has been moved (only OP_PICK
    and OP_ROLL move one), so this check accepts more; and other reasons why rustc may reject an expression of the author. *)
From Verif Require Import Base Model_Integer Model_ByteArray Model_Opcode Model_Script Model_Behavior Model_Macro Model_Mock.
Local Open Scope string_scope.
Local Open Scope list_scope.
Local Open Scope Z_scope.

(** ** The generated lines *)
Inductive line : Type :=
| LLet (x : string) (t : option rty)                          (* let x = <expression of that type>.to_data(); *)
| LCall (outs : list string) (c : opcode) (args : list string)  (* let (outs) = func::c(args); *)
| LUse (c : opcode) (arg : string).                           (* func::c(arg); *)

(** ** rustc *)
(** Variables in scope, newest first. *)
Definition tyenv : Type := list (string * rty).
Fixpoint lookup (G : tyenv) (x : string) : option rty :=
  match G with [] => None | (y, t) :: r => if String.eqb x y then Some t else lookup r x end.
Fixpoint lookup_all (G : tyenv) (l : list string) : option (list rty) :=
  match l with
  | [] => Some []
  | x :: r => match lookup G x, lookup_all G r with Some t, Some ts => Some (t :: ts) | _, _ => None end
  end.
Definition rty_eqb (a b : rty) : bool :=
  match a, b with RInt, RInt | RBool, RBool | RBytes, RBytes => true | _, _ => false end.
(** Type parameters are inferred from the arguments, first use first. *)
Fixpoint assoc (n : nat) (l : list (nat * rty)) : option rty :=
  match l with [] => None | (k, t) :: r => if Nat.eqb k n then Some t else assoc n r end.
Fixpoint infer (ps : list pty) (ts : list rty) (sub : list (nat * rty)) : option (list (nat * rty)) :=
  match ps, ts with
  | [], [] => Some sub
  | PT u :: ps', t :: ts' => if rty_eqb u t then infer ps' ts' sub else None
  | PVar n :: ps', t :: ts' =>
    match assoc n sub with
    | Some u => if rty_eqb u t then infer ps' ts' sub else None
    | None => infer ps' ts' ((n, t) :: sub)
    end
  | _, _ => None
  end.
Fixpoint instantiate (rs : list pty) (sub : list (nat * rty)) : option (list rty) :=
  match rs with
  | [] => Some []
  | PT t :: r => match instantiate r sub with Some l => Some (t :: l) | None => None end
  | PVar n :: r => match assoc n sub, instantiate r sub with Some t, Some l => Some (t :: l) | _, _ => None end
  end.
Definition apply_mock (c : opcode) (ts : list rty) : option (list rty) :=
  match mock c with
  | Some (ps, rs) => match infer ps ts [] with Some sub => instantiate rs sub | None => None end
  | None => None
  end.
Fixpoint bind_all (xs : list string) (ts : list rty) (G : tyenv) : option tyenv :=
  match xs, ts with
  | [], [] => Some G
  | x :: xs', t :: ts' => bind_all xs' ts' ((x, t) :: G)
  | _, _ => None
  end.
Definition check_line (G : tyenv) (l : line) : option tyenv :=
  match l with
  | LLet x (Some t) => Some ((x, t) :: G)
  | LLet _ None => None
  | LCall outs c args =>
    match lookup_all G args with
    | Some ts => match apply_mock c ts with Some rs => bind_all outs rs G | None => None end
    | None => None
    end
  | LUse c arg => match lookup G arg with Some t => match apply_mock c [t] with Some _ => Some G | None => None end | None => None end
  end.
Fixpoint check_lines (G : tyenv) (l : list line) : option tyenv :=
  match l with [] => Some G | x :: r => match check_line G x with Some G' => check_lines G' r | None => None end end.

(** ** state.rs, with [ident] *)
(** state.rs:7-13 [StackItem] *)
Record titem : Type := TItem { t_item : item; t_ident : string }.
Record tstate : Type := TState { ts_condition : predicate; ts_stack : list titem; ts_alt : list titem }.
Record tvstates : Type := TVStates { tv_states : list (string * tstate); tv_atoms : list atom }.
Definition twith_stack (s : tstate) (is_alt : bool) (l : list titem) : tstate :=
  if is_alt then TState (ts_condition s) (ts_stack s) l else TState (ts_condition s) l (ts_alt s).
Definition tthe_stack (s : tstate) (is_alt : bool) : list titem := if is_alt then ts_alt s else ts_stack s.
(** state.rs:40-54 *)
Definition tv_push (is_alt : bool) (i : titem) (vs : tvstates) : tvstates :=
  TVStates (map (fun '(v, s) => (v, if holds (ts_condition s) (tv_atoms vs) then twith_stack s is_alt (i :: tthe_stack s is_alt) else s)) (tv_states vs)) (tv_atoms vs).
Definition tconsistent (prev : option titem) (next : titem) : bool := consistent_names (option_map t_item prev) (t_item next).
(** state.rs:184-248 [pop_flagged]: the item of the last variant visited is returned *)
Fixpoint tpop_loop (is_alt : bool) (atoms : list atom) (prev : option titem) (l : list (string * tstate)) : outcome (list (string * tstate) * option titem) :=
  match l with
  | [] => Ok ([], prev)
  | (v, s) :: r =>
    if holds (ts_condition s) atoms then
      match tthe_stack s is_alt with
      | [] => Err (EMsg 3)
      | i :: rest =>
        if tconsistent prev i
        then do (r', res) <- tpop_loop is_alt atoms (Some i) r; Ok ((v, twith_stack s is_alt rest) :: r', res)
        else Err (EMsg 4)
      end
    else do (r', res) <- tpop_loop is_alt atoms prev r; Ok ((v, s) :: r', res)
  end.
Definition tv_pop (is_alt : bool) (vs : tvstates) : outcome (titem * tvstates) :=
  do (l, res) <- tpop_loop is_alt (tv_atoms vs) None (tv_states vs);
  match res with Some i => Ok (i, TVStates l (tv_atoms vs)) | None => Err (EMsg 5) end.
(** state.rs:56-124 [pick_roll] *)
Fixpoint tpick_loop (depth : nat) (is_roll : bool) (atoms : list atom) (prev : option titem) (l : list (string * tstate)) : outcome (list (string * tstate) * option titem) :=
  match l with
  | [] => Ok ([], prev)
  | (v, s) :: r =>
    if holds (ts_condition s) atoms then
      match nth_error (ts_stack s) depth with
      | None => Err (EMsg 6)
      | Some i =>
        if tconsistent prev i
        then do (r', res) <- tpick_loop depth is_roll atoms (Some i) r;
             Ok ((v, if is_roll then twith_stack s false (remove_nth depth (ts_stack s)) else s) :: r', res)
        else Err (EMsg 4)
      end
    else do (r', res) <- tpick_loop depth is_roll atoms prev r; Ok ((v, s) :: r', res)
  end.
Definition tv_pick_roll (depth : nat) (is_roll : bool) (vs : tvstates) : outcome (titem * tvstates) :=
  do (l, res) <- tpick_loop depth is_roll (tv_atoms vs) None (tv_states vs);
  match res with Some i => Ok (i, TVStates l (tv_atoms vs)) | None => Err (EMsg 5) end.
(** state.rs:126-182 [find_item]: the depth and the item of the last variant visited *)
Fixpoint tfind_loop (ident : string) (atoms : list atom) (prev : option (nat * titem)) (l : list (string * tstate)) : outcome (option (nat * titem)) :=
  match l with
  | [] => Ok prev
  | (v, s) :: r =>
    if holds (ts_condition s) atoms then
      match position (fun i => String.eqb ident (it_name (t_item i))) (ts_stack s) with
      | None => Err (EMsg 7)
      | Some d =>
        match nth_error (ts_stack s) d with
        | None => Panic
        | Some i =>
          match prev with
          | Some (d', _) => if Nat.eqb d' d then tfind_loop ident atoms (Some (d, i)) r else Err (EMsg 8)
          | None => tfind_loop ident atoms (Some (d, i)) r
          end
        end
      end
    else tfind_loop ident atoms prev r
  end.
Definition tv_find (ident : string) (vs : tvstates) : outcome (nat * titem) :=
  do res <- tfind_loop ident (tv_atoms vs) None (tv_states vs);
  match res with Some p => Ok p | None => Err (EMsg 5) end.

(** ** generate.rs, with [ident] and the generated lines *)
Record tgen : Type := TGen { tg_vs : tvstates; tg_n : nat }.
(** What a statement generates: ops and lines. *)
Definition generated : Type := (tgen * list emitted * list line)%type.
Definition tmake_ident (g : tgen) : string * tgen := (id_name (tg_n g), TGen (tg_vs g) (S (tg_n g))).
Definition tg_push (is_alt : bool) (i : titem) (g : tgen) : tgen := TGen (tv_push is_alt i (tg_vs g)) (tg_n g).
Definition tg_pop (is_alt : bool) (g : tgen) : outcome (titem * tgen) :=
  do (i, vs) <- tv_pop is_alt (tg_vs g); Ok (i, TGen vs (tg_n g)).
(** data_type.rs:25-30 and its implementations: the type of [to_data()] for an expression whose [to_pushop()] is this op *)
Definition push_type (o : op) : option rty :=
  match o with OPushInt _ => Some RInt | OPushBool _ => Some RBool | OPushArray _ _ => Some RBytes | _ => None end.
(** generate.rs:289-328 [run_push] *)
Definition trun_push (expr : op) (output_name : option string) (g : tgen) : outcome generated :=
  let (name, g1) := match output_name with Some n => (n, g) | None => tmake_ident g end in
  let g2 := tg_push false (TItem (Item name (match output_name with None => true | _ => false end) None) name) g1 in
  Ok (g2, [Emitted (EmPush expr) [output_name] [] (SPush expr output_name)], [LLet name (push_type expr)]).
(** generate.rs:839-855 [update_item_name] *)
Definition tupdate_item_name (o : opcode_stmt) (i : titem) : outcome titem :=
  do j <- update_item_name o (t_item i); Ok (TItem j (t_ident i)).
(** generate.rs:435-440 *)
Fixpoint tpop_n (n : nat) (g : tgen) (acc : list titem) : outcome (list titem * tgen) :=
  match n with
  | O => Ok (acc, g)
  | S k => do (i, g') <- tg_pop false g; tpop_n k g' (i :: acc)
  end.
Definition tindex_item (items : list titem) (idx : nat) : outcome titem :=
  match nth_error items idx with Some i => Ok i | None => Panic end.
(** generate.rs:491-525 *)
Fixpoint tnamed_outputs (c : opcode) (order : option (list nat)) (ins : list titem) (idx : nat) (names : list string) (g : tgen) : outcome (list titem * tgen) :=
  match names with
  | [] => Ok ([], g)
  | name :: r =>
    let (ident, g1) := tmake_ident g in
    do i <- (if String.eqb name "__" then
               if opcode_retains_input c then do j <- tindex_item ins 0; Ok (TItem (t_item j) ident)
               else match order with
                    | Some ord => match nth_error ord idx with Some k => do j <- tindex_item ins k; Ok (TItem (t_item j) ident) | None => Panic end
                    | None => Err (EMsg 16)
                    end
             else Ok (TItem (Item name false None) ident));
    do (is, g2) <- tnamed_outputs c order ins (S idx) r g1;
    Ok (i :: is, g2)
  end.
(** generate.rs:529-536 *)
Fixpoint tordered_outputs (ins : list titem) (order : list nat) (g : tgen) : outcome (list titem * tgen) :=
  match order with
  | [] => Ok ([], g)
  | k :: r =>
    do j <- tindex_item ins k;
    let (ident, g1) := tmake_ident g in
    do (is, g2) <- tordered_outputs ins r g1;
    Ok (TItem (t_item j) ident :: is, g2)
  end.
(** generate.rs:538-554 *)
Fixpoint tfresh_outputs (c : opcode) (ins : list titem) (n : nat) (g : tgen) : outcome (list titem * tgen) :=
  match n with
  | O => Ok ([], g)
  | S k =>
    let (ident, g1) := tmake_ident g in
    do i <- (if opcode_retains_input c then do j <- tindex_item ins 0; Ok (TItem (t_item j) ident) else Ok (TItem (Item ident true None) ident));
    do (is, g2) <- tfresh_outputs c ins k g1;
    Ok (i :: is, g2)
  end.
(** generate.rs:478-555 *)
Definition tmade_outputs (c : opcode) (o : opcode_stmt) (b : behavior) (ins : list titem) (g : tgen) : outcome (list titem * tgen) :=
  match os_outputs o with
  | Some names => if Nat.eqb (length names) (length (b_output_types b)) then tnamed_outputs c (b_output_order b) ins 0 names g else Err (EMsg 15)
  | None => match b_output_order b with
            | Some order => tordered_outputs ins order g
            | None => tfresh_outputs c ins (length (b_output_types b)) g
            end
  end.
(** generate.rs:424-621 [run_other_opcode] *)
Definition trun_other_opcode (c : opcode) (o : opcode_stmt) (g : tgen) : outcome generated :=
  do b <- opcode_behavior c;
  do (ins, g1) <- tpop_n (length (b_input_types b)) g [];
  do _ <- match os_inputs o with
          | Some names => if Nat.eqb (length ins) (length names) then check_inputs (map t_item ins) names else Err (EMsg 12)
          | None => Ok tt
          end;
  do (pushed, g2) <- tmade_outputs c o b ins g1;
  if func_exists c then
    Ok (fold_left (fun g i => tg_push false i g) pushed g2, [Emitted (EmCode c) (map (fun i => name_tokens (t_item i)) pushed) [] (SOpcode o)],
        [LCall (map t_ident pushed) c (map t_ident ins)])
  else Err (EMsg 99).
(** generate.rs:643-681 *)
Definition trun_depth_of (o : opcode_stmt) (g : tgen) (ident : string) (offset : Z) : outcome generated :=
  do (depth, _) <- tv_find ident (tg_vs g);
  let (name, g1) := match os_outputs o with Some [n] => (n, g) | _ => tmake_ident g end in
  do k <- integer_new (Z.of_nat depth);
  Ok (tg_push false (TItem (Item name (match os_outputs o with None => true | _ => false end) (Some k)) name) g1,
      [Emitted (EmNumber (k + offset)) [match os_outputs o with Some [n] => Some n | _ => None end] [] (SOpcode o)], [LLet name (Some RInt)]).

Section Types.
(** the type of [<text as Default>::default().to_data()], for the type texts of [transmute] *)
Variable type_of : string -> option rty.
(** generate.rs:683-711: [transmute] gives the item's variable another type *)
Definition trun_transmute (o : opcode_stmt) (g : tgen) (ident ty : string) : outcome generated :=
  do (_, i) <- tv_find ident (tg_vs g); Ok (g, [], [LLet (t_ident i) (type_of ty)]).
(** generate.rs:623-717 [run_opcode_function] *)
Definition trun_opcode_function (o : opcode_stmt) (g : tgen) : outcome generated :=
  if String.eqb (os_ident o) "depth_of" then
    match os_inputs o with Some [InIdent ident] => trun_depth_of o g ident 0 | _ => Err (EMsg 17) end
  else if String.eqb (os_ident o) "depth_of_offset" then
    match os_inputs o with Some [InIdent ident; InExpr _ offset] => trun_depth_of o g ident offset | _ => Err (EMsg 17) end
  else if String.eqb (os_ident o) "transmute" then
    match os_inputs o with
    | Some [InIdent ident; ty] =>
      match os_outputs o with
      | Some [out] => if String.eqb out ident then trun_transmute o g ident (input_text ty) else Err (EMsg 18)
      | _ => trun_transmute o g ident (input_text ty)
      end
    | _ => Err (EMsg 19)
    end
  else Err (EMsg 20).
(** generate.rs:330-422 [run_opcode] *)
Definition trun_opcode (o : opcode_stmt) (g : tgen) : outcome generated :=
  match opcode_by_name (os_ident o) with
  | Some OP_TOALTSTACK =>
    do (i, g1) <- tg_pop false g;
    do _ <- verify_item_name o (t_item i);
    do i' <- tupdate_item_name o i;
    Ok (tg_push true i' g1, [Emitted (EmCode OP_TOALTSTACK) [] [name_tokens (t_item i')] (SOpcode o)], [])
  | Some OP_FROMALTSTACK =>
    do (i, g1) <- tg_pop true g;
    do _ <- verify_item_name o (t_item i);
    do i' <- tupdate_item_name o i;
    Ok (tg_push false i' g1, [Emitted (EmCode OP_FROMALTSTACK) [name_tokens (t_item i')] [] (SOpcode o)], [])
  | Some ((OP_PICK | OP_ROLL) as c) =>
    do (d, g1) <- tg_pop false g;
    do _ <- verify_item_name o (t_item d);
    do depth <- match it_integer (t_item d) with
                | Some k => if k <? 0 then Err (EMsg 21) else Ok (Z.to_nat k)
                | None => Ok O
                end;
    do (i, vs) <- tv_pick_roll depth (opcode_eqb c OP_ROLL) (tg_vs g1);
    do i' <- tupdate_item_name o i;
    Ok (tg_push false i' (TGen vs (tg_n g1)), [Emitted (EmCode c) [name_tokens (t_item i')] [] (SOpcode o)], [LUse c (t_ident d)])
  | Some c => trun_other_opcode c o g
  | None => trun_opcode_function o g
  end.
Definition twith_atom (a : atom) (g : tgen) : tgen := TGen (TVStates (tv_states (tg_vs g)) (tv_atoms (tg_vs g) ++ [a])) (tg_n g).
(** generate.rs:773-782 *)
Fixpoint tmerge_states (atoms_if atoms_else : list atom) (after_then after_else : list (string * tstate)) : list (string * tstate) :=
  match after_then, after_else with
  | (_, st) :: rt, (v, se) :: re =>
    (v, if holds (ts_condition se) atoms_if && negb (holds (ts_condition se) atoms_else) then st else se) :: tmerge_states atoms_if atoms_else rt re
  | _, _ => []
  end.
(** generate.rs:269-287 [run_stmt] and 719-791 [run_if]: the lines of both branches follow each other in one block *)
Fixpoint trun_stmt (s : stmt) (g : tgen) {struct s} : outcome generated :=
  let trun_stmts :=
    fix trun_stmts (l : list stmt) (g : tgen) {struct l} : outcome generated :=
      match l with
      | [] => Ok (g, [], [])
      | s :: r => do r1 <- trun_stmt s g; do r2 <- trun_stmts r (fst (fst r1)); Ok (fst (fst r2), snd (fst r1) ++ snd (fst r2), snd r1 ++ snd r2)
      end in
  match s with
  | SForLoop _ => Err (EMsg 22)
  | SRustIf _ _ => Err (EMsg 23)
  | SPush e out => trun_push e out g
  | SOpcode o => trun_opcode o g
  | SScriptIf if_opcode then_stmts else_opcode else_stmts endif_opcode =>
    do r0 <- trun_opcode if_opcode g;
    match if_variable if_opcode with
    | None => Err (EMsg 24)
    | Some var =>
      let g0 := fst (fst r0) in
      let atoms := tv_atoms (tg_vs g0) in
      do r1 <- trun_stmts then_stmts (twith_atom (Atom var true) g0);
      do r2 <- match else_opcode with Some o => trun_opcode o (fst (fst r1)) | None => Ok (fst (fst r1), [], []) end;
      do r3 <- trun_stmts else_stmts (twith_atom (Atom var false) (TGen (tg_vs g0) (tg_n (fst (fst r2)))));
      do r4 <- trun_opcode endif_opcode (fst (fst r3));
      Ok (TGen (TVStates (tmerge_states (atoms ++ [Atom var true]) (atoms ++ [Atom var false]) (tv_states (tg_vs (fst (fst r2)))) (tv_states (tg_vs (fst (fst r4))))) atoms) (tg_n (fst (fst r4))),
          snd (fst r0) ++ snd (fst r1) ++ snd (fst r2) ++ snd (fst r3) ++ snd (fst r4), snd r0 ++ snd r1 ++ snd r2 ++ snd r3 ++ snd r4)
    end
  end.
Fixpoint trun_stmts (l : list stmt) (g : tgen) : outcome generated :=
  match l with
  | [] => Ok (g, [], [])
  | s :: r => do r1 <- trun_stmt s g; do r2 <- trun_stmts r (fst (fst r1)); Ok (fst (fst r2), snd (fst r1) ++ snd (fst r2), snd r1 ++ snd r2)
  end.
End Types.

(** generate.rs:48-66 *)
Definition tinitial_states (m : macro_script) : list (string * tstate) :=
  match ms_variants m with
  | [] => [(ms_name m, TState [] [] [])]
  | vs => map (fun '(v, p) => (v, TState p [] [])) vs
  end.
(** generate.rs:99-118 *)
Fixpoint tpush_variant (v : string) (i : titem) (l : list (string * tstate)) : outcome (list (string * tstate)) :=
  match l with
  | [] => Err (EMsg 25)
  | (w, s) :: r => if String.eqb w v then Ok ((w, twith_stack s false (i :: ts_stack s)) :: r) else do r' <- tpush_variant v i r; Ok ((w, s) :: r')
  end.
Fixpoint tpush_variants (enum : bool) (vs : list string) (i : titem) (l : list (string * tstate)) : outcome (list (string * tstate)) :=
  match vs with [] => Ok l | v :: r => do l' <- tpush_variant v i l; if enum then tpush_variants enum r i l' else Panic end.
(** generate.rs:67-131 *)
Fixpoint trun_inputs (enum : bool) (ins : list script_input) (vs : tvstates) : outcome tvstates :=
  match ins with
  | [] => Ok vs
  | i :: r =>
    let it := TItem (Item (in_ident i) false None) (in_ident i) in
    do vs' <- match in_variants i with
              | Some names => do l <- tpush_variants enum names it (tv_states vs); Ok (TVStates l (tv_atoms vs))
              | None => Ok (tv_push false it vs)
              end;
    trun_inputs enum r vs'
  end.
(** generate.rs:72-74: the lines for the inputs, given the types declared for them *)
Definition input_lines (ins : list script_input) (tys : list rty) : list line := map (fun p => LLet (in_ident (fst p)) (Some (snd p))) (combine ins tys).
(** generate.rs:33-267 [run_script] *)
Definition trun_script (type_of : string -> option rty) (m : macro_script) (tys : list rty) : outcome generated :=
  do vs <- trun_inputs (has_variants m) (ms_inputs m) (TVStates (tinitial_states m) []);
  do r <- trun_stmts type_of (ms_stmts m) (TGen vs 0);
  Ok (fst (fst r), snd (fst r), input_lines (ms_inputs m) tys ++ snd r).
