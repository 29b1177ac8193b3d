(** Specification for what the script macro puts out (C55). *)
From Verif Require Import Base Model_Opcode Model_Script Model_Behavior Model_Macro Spec_Macro Model_MacroParse Spec_MacroParse Model_MacroOut.
Local Open Scope string_scope.
Local Open Scope list_scope.
Local Open Scope Z_scope.

(** The lines of a function body in source order with their texts: a [let] with its statement, anything else with its expression. *)
Section Lines.
Context (R : rust) (S : source).
Inductive tline : rust_stmt -> list (string * stmt) -> Prop :=
| TlLetOpcode p ns e o : binds p ns -> opcode_line R e (Some ns) o -> tline (StLocal p (Some e)) [(src_stmt S (StLocal p (Some e)), SOpcode o)]
| TlLetPush p n e : binds p [n] -> ~ opcode_shaped e -> tline (StLocal p (Some e)) [(src_stmt S (StLocal p (Some e)), SPush (expr_pushop R e) (Some n))]
| TlExpr e l : tline_expr e l -> tline (StExpr e) l
| TlSemi e l : tline_expr e l -> tline (StSemi e) l
with tline_expr : expr -> list (string * stmt) -> Prop :=
| TlOpcode e o : opcode_line R e None o -> tline_expr e [(expr_text R e, SOpcode o)]
| TlPush e : plain_value e -> tline_expr e [(expr_text R e, SPush (expr_pushop R e) None)]
| TlBlock b l : tlines b l -> tline_expr (EBlock b) l
with tlines : list rust_stmt -> list (string * stmt) -> Prop :=
| TlNil : tlines [] []
| TlCons s r a b : tline s a -> tlines r b -> tlines (s :: r) (a ++ b).
End Lines.

(** The op a line stands for: the data it pushes, its opcode, or the number depth_of finds. *)
Definition stands_for (s : stmt) (o : op) : Prop :=
  match s with
  | SPush x _ => o = x
  | SOpcode c => match opcode_by_name (os_ident c) with Some k => o = OCode k | None => exists n, o = OPushInt n end
  | _ => False
  end.
(** An op with and without debugging information *)
Definition tagged_with (t : tagged_op) (file : string) (pos : Z * Z) (code : list (Z * string)) (pushed alt_pushed : list (option string)) : Prop :=
  t_src_file t = file /\ (t_src_line t, t_src_column t) = pos /\ t_src_code t = code /\ t_pushed_names t = Some pushed /\ t_alt_pushed_names t = Some alt_pushed.
Definition untagged (t : tagged_op) : Prop :=
  t_src_file t = "" /\ t_src_line t = 0 /\ t_src_column t = 0 /\ t_src_code t = [] /\ t_pushed_names t = None /\ t_alt_pushed_names t = None.
(** The inputs of a variant: those without [#[variant]] and those that name it. *)
Definition belongs (v : string) (i : ir_input) : bool := match ii_variants i with None => true | Some vs => existsb (String.eqb v) vs end.
(** A field of the generated struct or enum for an input *)
Definition field_for (is_pub : bool) (i : ir_input) (f : field) : Prop :=
  fi_name f = ii_ident i /\ fi_ty f = ii_ty i /\ fi_attrs f = ii_attrs i /\ fi_pub f = is_pub.
(** Doc lines collected for a variant *)
Definition docs_of (d : script_docs) (v : string) : list (list Z) := match lookup v (sd_variants d) with Some l => l | None => [] end.
