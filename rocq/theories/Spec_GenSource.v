(** Independent specification: what rustfmt writes for the macro's program, and which texts the statements should get. *)
From Verif Require Import Base Model_Address Model_MacroParse Model_MacroOut Model_GenSource Spec_Text.
Local Open Scope string_scope.
Local Open Scope list_scope.
Local Open Scope Z_scope.

Definition newline : list Z := [10].
(** A statement as rustfmt lays it out at the left margin: its lines. *)
Definition block := list (list Z).
Fixpoint block_text (b : block) : list Z := match b with [] => [] | [l] => l | l :: r => l ++ newline ++ block_text r end.
Definition marker : list Z := text "__BITCOIN_CASH_SCRIPT_MACRO_LINE_SEPARATOR__".
Definition occurs (w t : list Z) : Prop := exists a b, t = a ++ w ++ b.
Definition space_char (c : Z) : Prop :=
  9 <= c <= 13 \/ In c [32; 0x85; 0xa0; 0x1680; 0x2028; 0x2029; 0x202f; 0x205f; 0x3000] \/ 0x2000 <= c <= 0x200a.
(** Proper statements: at least one line, no line break within a line, the first line is not empty, the text does not end in white
    space, and the marker does not occur in it. *)
Definition proper (b : block) : Prop :=
  Forall (fun l => ~ In 10 l) b /\ (exists l r, b = l :: r /\ l <> []) /\ (exists t c, block_text b = t ++ [c] /\ ~ space_char c) /\ ~ occurs marker (block_text b).
(** Inside a function body every line that is not empty is indented by four spaces. *)
Definition indented (b : block) : block := map (fun l => match l with [] => [] | _ => text "    " ++ l end) b.
(** What rustfmt writes for the program: the function's first line, the marker, every statement followed by the marker, the closing
    brace.  Only the last marker may stand without semicolon. *)
Inductive body : list block -> list Z -> Prop :=
| BodyEnd : body [] (newline ++ text "}" ++ newline)
| BodyStmt b bs semicolon t : body bs t -> (semicolon = true \/ bs = []) ->
    body (b :: bs) (newline ++ block_text (indented b) ++ newline ++ text "    " ++ marker ++ text "()" ++ text (if semicolon : bool then ";" else "") ++ t).
Definition rendered (bs : list block) (out : list Z) : Prop :=
  exists t, body bs t /\ out = text "fn main() {" ++ newline ++ text "    " ++ marker ++ text "();" ++ t.

(** A line [key = value] of a configuration, however indented *)
Definition sets (config key value : list Z) : Prop :=
  exists before spaces after, config = before ++ spaces ++ key ++ text " = " ++ value ++ newline ++ after /\ Forall (fun c => c = 32) spaces /\ (before = [] \/ exists b, before = b ++ newline).
(** The rustfmt that is used: the one the variable names, or the installed one; an empty variable means none. *)
Definition uses (e : tools) (p : list Z) : Prop := (env_rustfmt e = Some p /\ p <> []) \/ (env_rustfmt e = None /\ found_rustfmt e = Some p).
(** The program rustfmt is given: [fn main() { MARKER(); s1; MARKER(); s2; MARKER() }] with spaces between the tokens *)
Fixpoint between (sep : list Z) (l : list (list Z)) : list Z := match l with [] => [] | [x] => x | x :: r => x ++ sep ++ between sep r end.
Definition main_source (stmts : list (list Z)) : list Z :=
  text "fn main () { " ++ marker ++ text " () ; " ++ between (text " ; ") (map (fun s => s ++ text " ; " ++ marker ++ text " ()") stmts) ++ text " }".
(** Rustfmt [p] lays the statements out as [bs] when lines may be [w] characters long. *)
Definition lays_out (e : tools) (p : list Z) (stmts : list (list Z)) (w : Z) (bs : list block) : Prop :=
  length bs = length stmts /\ Forall proper bs /\
  forall config number, decimal w number -> sets config (text "max_width") number -> sets config (text "reorder_imports") (text "false") ->
    exists out, run_rustfmt e p config (main_source stmts) = Some out /\ rendered bs out.
(** No stretch of the text without line break is longer than [w]. *)
Definition fits (w : Z) (t : list Z) : Prop := forall a l b, t = a ++ l ++ b -> ~ In 10 l -> zlen l <= w.
