(** C57: what rustc's check of the code generated by the script macro says about the script on the network. *)
From Verif Require Import Base Spec_Encoding Model_ByteArray Model_Opcode Model_Script Model_Behavior Model_Macro Spec_Script Spec_Macro Spec_Network Spec_MacroRun Model_Mock Model_MacroType.
Local Open Scope string_scope.
Local Open Scope list_scope.
Local Open Scope Z_scope.

(** Stack items of a type: numbers are minimally encoded (of any size), Booleans are the results of comparisons. *)
Definition has (t : rty) (v : list Z) : Prop :=
  match t with RInt => minimal_num v | RBool => v = [] \/ v = [1] | RBytes => True end.
(** Every item of the one type is one of the other. *)
Definition contained (a b : rty) : Prop := forall v, has a v -> has b v.
(** The mock function can be called with arguments and result of these types. *)
Definition inst (sub : nat -> rty) (p : pty) : rty := match p with PT t => t | PVar n => sub n end.
Definition signature (c : opcode) (ts rs : list rty) : Prop :=
  exists ps qs sub, mock c = Some (ps, qs) /\ ts = map (inst sub) ps /\ rs = map (inst sub) qs.

(** Whenever a variable of the generated code is bound again, the new type contains the old one. *)
Definition raises (G G' : tyenv) : Prop := forall x t, lookup G x = Some t -> exists t', lookup G' x = Some t' /\ contained t t'.
Fixpoint never_lowers (G : tyenv) (l : list line) : Prop :=
  match l with [] => True | x :: r => forall G', check_line G x = Some G' -> raises G G' /\ never_lowers G' r end.

(** ** Conditions along the run of the macro *)
(** Item [j] may stand for item [i]. *)
Definition fits (G : tyenv) (i j : titem) : Prop :=
  (exists a b, lookup G (t_ident i) = Some a /\ lookup G (t_ident j) = Some b /\ contained a b) /\
  forall k, it_integer (t_item j) = Some k -> it_integer (t_item i) = Some k.
Definition tpossible (g : tgen) (s : tstate) : Prop := exists v, In (v, s) (tv_states (tg_vs g)) /\ holds (ts_condition s) (tv_atoms (tg_vs g)) = true.
(** The variants still possible agree on the type of the item at depth [k], and on its value where the macro knows it. *)
Definition tagree_at (G : tyenv) (is_alt : bool) (k : nat) (g : tgen) : Prop :=
  forall s t i j, tpossible g s -> tpossible g t -> nth_error (tthe_stack s is_alt) k = Some i -> nth_error (tthe_stack t is_alt) k = Some j -> fits G i j.
Definition tagree (o : opcode_stmt) (g : tgen) (G : tyenv) : Prop :=
  match opcode_by_name (os_ident o) with
  | Some OP_FROMALTSTACK => tagree_at G true 0 g
  | Some (OP_PICK | OP_ROLL) =>
    tagree_at G false 0 g /\ forall s i d, tpossible g s -> nth_error (ts_stack s) 0 = Some i -> it_integer (t_item i) = Some d -> tagree_at G false (S (Z.to_nat d)) g
  | Some c => forall b k, opcode_behavior c = Ok b -> (k < length (b_input_types b))%nat -> tagree_at G false k g
  | None => True
  end.
(** PICK and ROLL take a number that came from [depth_of]; the length OP_SIZE pushes is not taken for such a number; [depth_of_offset] has offset 0. *)
Definition tknown (o : opcode_stmt) (g : tgen) : Prop :=
  (os_ident o = "OP_PICK" \/ os_ident o = "OP_ROLL" -> forall s i, tpossible g s -> nth_error (ts_stack s) 0 = Some i -> exists d, it_integer (t_item i) = Some d) /\
  (os_ident o = "OP_SIZE" -> (exists x y, os_outputs o = Some [x; y] /\ y <> "__") \/ forall s i, tpossible g s -> nth_error (ts_stack s) 0 = Some i -> it_integer (t_item i) = None) /\
  (os_ident o = "depth_of_offset" -> forall l t z, os_inputs o = Some l -> In (InExpr t z) l -> z = 0).
Definition tcoherent (o : opcode_stmt) (g : tgen) (G : tyenv) : Prop := tagree o g G /\ tknown o g.
(** Where a variant may take either branch, what the then-branch leaves can stand for what the else-branch leaves. *)
Definition tbalanced (var : string) (atoms : list atom) (g_then g_else : tgen) (G : tyenv) : Prop :=
  forall k v s w t, nth_error (tv_states (tg_vs g_then)) k = Some (v, s) -> nth_error (tv_states (tg_vs g_else)) k = Some (w, t) ->
  holds (ts_condition s) (atoms ++ [Atom var true]) = true -> holds (ts_condition t) (atoms ++ [Atom var false]) = true ->
  Forall2 (fits G) (ts_stack s) (ts_stack t) /\ Forall2 (fits G) (ts_alt s) (ts_alt t).
(** The macro runs and rustc accepts: from the state [g] and the variables [G] to [g'] and [G']. *)
Definition accepted (r : outcome generated) (G : tyenv) (g' : tgen) (G' : tyenv) : Prop :=
  exists code lines, r = Ok (g', code, lines) /\ check_lines G lines = Some G'.
Section Along.
Variable type_of : string -> option rty.
(** The conditions at every opcode of the script as the macro runs it, and every conditional balanced. *)
Fixpoint talong (s : stmt) (g : tgen) (G : tyenv) {struct s} : Prop :=
  let all :=
    fix all (l : list stmt) (g : tgen) (G : tyenv) {struct l} : Prop :=
      match l with
      | [] => True
      | s :: r => talong s g G /\ forall g1 G1, accepted (trun_stmt type_of s g) G g1 G1 -> all r g1 G1
      end in
  match s with
  | SOpcode o => tcoherent o g G
  | SScriptIf i t e es en =>
    tcoherent i g G /\
    forall g0 G0 var, accepted (trun_opcode type_of i g) G g0 G0 -> if_variable i = Some var ->
      let atoms := tv_atoms (tg_vs g0) in
      all t (twith_atom (Atom var true) g0) G0 /\
      forall g1 G1 g2 G2, accepted (trun_stmts type_of t (twith_atom (Atom var true) g0)) G0 g1 G1 ->
        accepted (match e with Some o => trun_opcode type_of o g1 | None => Ok (g1, [], []) end) G1 g2 G2 ->
        all es (twith_atom (Atom var false) (TGen (tg_vs g0) (tg_n g2))) G2 /\
        forall g3 G3, accepted (trun_stmts type_of es (twith_atom (Atom var false) (TGen (tg_vs g0) (tg_n g2)))) G2 g3 G3 -> tbalanced var atoms g1 g3 G3
  | _ => True
  end.
Fixpoint all_talong (l : list stmt) (g : tgen) (G : tyenv) : Prop :=
  match l with [] => True | s :: r => talong s g G /\ forall g1 G1, accepted (trun_stmt type_of s g) G g1 G1 -> all_talong r g1 G1 end.
Definition script_talong (m : macro_script) (tys : list rty) : Prop :=
  forall vs G, trun_inputs (has_variants m) (ms_inputs m) (TVStates (tinitial_states m) []) = Ok vs -> check_lines [] (input_lines (ms_inputs m) tys) = Some G -> all_talong (ms_stmts m) (TGen vs 0) G.
End Along.
(** The types of the inputs pushed for a variant, first pushed first. *)
Definition variant_types (m : macro_script) (tys : list rty) (v : string) : list rty :=
  concat (map (fun p => match in_variants (fst p) with None => [snd p] | Some vs => repeat (snd p) (occurrences v vs) end) (combine (ms_inputs m) tys)).
(** Names of variants are distinct (Rust demands it of an enum). *)
Definition variants_ok (m : macro_script) : Prop := NoDup (map fst (variants m)).

(** ** On the network *)
(** The operands of an op about to be executed have the types of the mock function's parameters (deepest first). *)
Definition operands_typed (e : emitted) (m : machine) : Prop :=
  forall c, em_op e = EmCode c ->
  exists ts rs vs r, signature c ts rs /\ (if opcode_eqb c OP_FROMALTSTACK then m_alt m else m_main m) = rev vs ++ r /\ Forall2 has ts vs.
(** The item has the type of its variable, and the value the macro has for it. *)
Definition item_typed (G : tyenv) (i : titem) (v : list Z) : Prop :=
  (exists t, lookup G (t_ident i) = Some t /\ has t v) /\ forall k, it_integer (t_item i) = Some k -> script_num v = k.
(** An executed OP_IF finds the other truth value than the valuation has for the name written with it. *)
Definition strays (sigma : valuation) (e : emitted) (m : machine) : Prop :=
  em_op e = EmCode OP_IF /\ Spec_Network.active m = true /\ exists o x v r, em_src e = SOpcode o /\ if_variable o = Some x /\ m_main m = v :: r /\ truth v <> sigma x.
Definition strayed (E : env) (sigma : valuation) (code : list emitted) (start now : list (list Z * instr) * machine) : Prop :=
  exists before e rest z, code = before ++ e :: rest /\ visits E start z /\ visits E z now /\ codes (e :: rest) (fst z) /\ strays sigma e (snd z).
(** Counterexamples: the macro and rustc accept the script, and an execution on inputs of the declared types, in which no conditional strays, reaches an
    op whose operands are not of its function's parameter types. *)
Definition ill_typed (type_of : string -> option rty) (m : macro_script) (tys : list rty) : Prop :=
  exists g code lines G sigma v p values bs E l l' m' before e rest,
  trun_script type_of m tys = Ok (g, code, lines) /\ length tys = length (ms_inputs m) /\ check_lines [] lines = Some G /\ Forall proper (ms_stmts m) /\ variants_ok m /\
  In (v, p) (variants m) /\ satisfies sigma p /\ Forall2 has (variant_types m tys v) values /\ Forall pushes code /\ script_ser_ops (script_from_ops (map op_of code)) = Ok bs /\
  decodes (ba_data bs) l /\ codes code l /\ visits E (l, Machine (rev values) [] [] (ba_data bs)) (l', m') /\ ~ strayed E sigma code (l, Machine (rev values) [] [] (ba_data bs)) (l', m') /\
  code = before ++ e :: rest /\ codes (e :: rest) l' /\ Spec_Network.active m' = true /\ ~ operands_typed e m'.
(** The variables a line binds. *)
Definition bound (l : line) : list string := match l with LLet x _ => [x] | LCall outs _ _ => outs | LUse _ _ => [] end.
