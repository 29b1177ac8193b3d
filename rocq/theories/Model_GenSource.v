(** Model of bitcoin-cash-script-macro/src/gen_source.rs: how the source texts attached to script ops are obtained from rustfmt.
    Texts are lists of characters (code points).  Outside the model: rustfmt itself, the file system and the environment, gathered in
    [tools]; an I/O error or an unsuccessful exit of rustfmt is [None]. *)
From Verif Require Import Base Model_Script Model_Address Model_Text Model_MacroParse Model_MacroOut.
Local Open Scope string_scope.
Local Open Scope list_scope.
Local Open Scope Z_scope.

Record tools : Type := Tools {
  env_rustfmt : option (list Z);                       (* env::var_os("RUSTFMT") *)
  found_rustfmt : option (list Z);                     (* toolchain_find::find_installed_component("rustfmt") *)
  run_rustfmt : list Z -> list Z -> list Z -> option (list Z)    (* program, text of rustfmt.toml, file before -> file after *)
}.
(** gen_source.rs:71-82 [which_rustfmt] *)
Definition which_rustfmt (e : tools) : option (list Z) :=
  match env_rustfmt e with Some [] => None | Some p => Some p | None => found_rustfmt e end.
(** gen_source.rs:84-96 [write_rustfmt_config] *)
Definition nl : list Z := [10].
Definition rustfmt_config (width : Z) : list Z :=
  text "max_width = " ++ int_display width ++ nl ++ text "        reorder_imports = false" ++ nl ++ text "        reorder_modules = false" ++ nl ++ text "    ".
(** gen_source.rs:15 *)
Definition separator : list Z := text "__BITCOIN_CASH_SCRIPT_MACRO_LINE_SEPARATOR__".
(** gen_source.rs:16-21: the program given to rustfmt; tokens are printed with a space between them *)
Definition program (stmts : list (list Z)) : list Z :=
  let call := separator ++ text " ()" in
  let item s := s ++ text " ; " ++ call in
  let fix items l := match l with [] => [] | [s] => item s | s :: r => item s ++ text " ; " ++ items r end in
  text "fn main () { " ++ call ++ text " ; " ++ items stmts ++ text " }".
(** [\s] of the regex crate: Unicode's White_Space *)
Definition is_space (c : Z) : bool :=
  ((9 <=? c) && (c <=? 13)) || (c =? 32) || (c =? 0x85) || (c =? 0xa0) || (c =? 0x1680) || ((0x2000 <=? c) && (c <=? 0x200a))
  || (c =? 0x2028) || (c =? 0x2029) || (c =? 0x202f) || (c =? 0x205f) || (c =? 0x3000).
Fixpoint skip_space (t : list Z) : list Z := match t with c :: r => if is_space c then skip_space r else t | [] => [] end.
Fixpoint strip (p t : list Z) : option (list Z) :=
  match p, t with [], _ => Some t | a :: p', b :: t' => if a =? b then strip p' t' else None | _, [] => None end.
(** gen_source.rs:14-15: a match of [\s*SEPARATOR\s*\(\s*\)\s*;?] at the start of the text; what follows it.  Every [\s*] is followed by a
    character that is not white space, so greedy matching needs no backtracking. *)
Definition match_separator (t : list Z) : option (list Z) :=
  match strip separator (skip_space t) with
  | None => None
  | Some t => match strip [40] (skip_space t) with
    | None => None
    | Some t => match strip [41] (skip_space t) with
      | None => None
      | Some t => let t := skip_space t in Some (match strip [59] t with Some t' => t' | None => t end)
      end
    end
  end.
(** gen_source.rs:26-27 [Regex::split]: the leftmost match is looked for again after every match.  [fuel]: one unit per character. *)
Fixpoint split_from (fuel : nat) (before t : list Z) : list (list Z) :=
  match fuel with
  | O => [before]
  | S fuel =>
    match match_separator t with
    | Some rest => before :: split_from fuel [] rest
    | None => match t with [] => [before] | c :: r => split_from fuel (before ++ [c]) r end
    end
  end.
Definition split (t : list Z) : list (list Z) := split_from (S (length t)) [] t.
(** gen_source.rs:13, 23-24 [dedent]: the first line break with four spaces is dropped, from the others the spaces are dropped *)
Definition indent : list Z := 10 :: text "    ".
Fixpoint replace_first (t : list Z) : list Z :=
  match strip indent t with Some r => r | None => match t with [] => [] | c :: r => c :: replace_first r end end.
Fixpoint replace_all_from (fuel : nat) (t : list Z) : list Z :=
  match fuel with
  | O => t
  | S fuel => match strip indent t with Some r => 10 :: replace_all_from fuel r | None => match t with [] => [] | c :: r => c :: replace_all_from fuel r end end
  end.
Definition replace_all (t : list Z) : list Z := replace_all_from (length t) t.
Definition dedent (t : list Z) : list Z := replace_all (replace_first t).
(** gen_source.rs:36-65 [format_token_stream]; the width is a literal (lib.rs:60), so [max_line_width + 4] does not overflow *)
Definition format_token_stream (e : tools) (widths : list Z) (unformatted : list Z) : outcome (list (list Z)) :=
  match which_rustfmt e with
  | None => Err (EMsg 71)
  | Some rustfmt => omap (fun w => match run_rustfmt e rustfmt (rustfmt_config (w + 4)) unformatted with None => Err (EMsg 72) | Some t => Ok t end) widths
  end.
(** gen_source.rs:9-34 [format_stmts]; [lines.remove(lines.len() - 1)] panics without lines *)
Definition format_stmts (e : tools) (widths : list Z) (stmts : list (list Z)) : outcome (list (list (list Z))) :=
  do outs <- format_token_stream e widths (program stmts);
  omap (fun out => match map dedent (tl (split out)) with [] => Panic | lines => Ok (removelast lines) end) outs.

(** The formatter the rest of the macro uses (generate.rs:41-43).  A panic of a procedural macro is a compile error like the errors
    it returns.  [chars]: reading a text as characters. *)
Definition format_with (e : tools) (chars : string -> list Z) (widths : list Z) (stmts : list string) : option (list (list string)) :=
  match format_stmts e widths (map chars stmts) with Ok l => Some (map (map utf8) l) | _ => None end.
