(** C60: the source texts attached to the ops of a script. *)
From Coq Require Import Lia.
From Verif Require Import Proofs_MacroParse2 Proofs_Behavior Base BaseLemmas Model_Script Model_Address Model_Text Model_Opcode Model_Behavior Model_Macro Spec_Script Spec_Macro Proofs_Macro Spec_Text Proofs_Text Proofs_Text2 Model_MacroParse Spec_MacroParse Model_MacroOut Spec_MacroOut Proofs_MacroOut Proofs_MacroOut2 Prop_MacroParse Prop_MacroOut Prop_MacroOut2 Model_GenSource Spec_GenSource Proofs_GenSource.
Local Open Scope string_scope.
Local Open Scope list_scope.
Local Open Scope Z_scope.

Lemma uses_which e p : uses e p <-> which_rustfmt e = Some p.
Proof.
  unfold uses, which_rustfmt. destruct (env_rustfmt e) as [[|c q]|]; split.
  - intros [([= <-] & H)|(H & _)]; [now contradiction H|discriminate].
  - discriminate.
  - intros [([= <-] & _)|(H & _)]; [reflexivity|discriminate].
  - intros [= <-]. left. split; [reflexivity|discriminate].
  - intros [(H & _)|(_ & H)]; [discriminate|exact H].
  - intros H. right. now split.
Qed.
Lemma program_source stmts : program stmts = main_source stmts.
Proof.
  unfold program, main_source. cbv zeta. change (text " () ; ") with (text " ()" ++ text " ; "). rewrite <- !app_assoc. do 4 f_equal. f_equal. induction stmts as [|s [|s' r] IH]; [reflexivity|reflexivity|].
  cbn [map between] in *. rewrite <- !app_assoc in *. do 5 f_equal. exact IH.
Qed.
Lemma config_width w : sets (rustfmt_config w) (text "max_width") (int_display w).
Proof. exists [], [], (text "        reorder_imports = false" ++ nl ++ text "        reorder_modules = false" ++ nl ++ text "    "). split; [reflexivity|]. split; [constructor|now left]. Qed.
Lemma config_imports w : sets (rustfmt_config w) (text "reorder_imports") (text "false").
Proof.
  exists (text "max_width = " ++ int_display w ++ newline), (text "        "), (text "        reorder_modules = false" ++ nl ++ text "    ").
  split; [unfold rustfmt_config; rewrite <- !app_assoc; reflexivity|]. split; [repeat constructor|]. right. exists (text "max_width = " ++ int_display w). now rewrite <- app_assoc.
Qed.
Lemma removelast_map_snoc (A B : Type) (g : A -> B) l x : match map g (l ++ [x]) with [] => Panic | lines => Ok (removelast lines) end = Ok (map g l).
Proof. rewrite map_app. cbn [map]. destruct (map g l ++ [g x]) eqn:E; [destruct (map g l); discriminate|]. now rewrite <- E, removelast_last. Qed.

(** Every statement gets its own text, as rustfmt lays it out at the left margin, for every line width. *)
Theorem C60_texts : forall e p widths stmts layout, uses e p -> Forall2 (fun w bs => lays_out e p stmts (w + 4) bs) widths layout ->
  format_stmts e widths stmts = Ok (map (map block_text) layout).
Proof.
  intros e p widths stmts layout U H. unfold format_stmts, format_token_stream. rewrite program_source. apply uses_which in U. rewrite U.
  assert (exists outs, omap (fun w => match run_rustfmt e p (rustfmt_config (w + 4)) (main_source stmts) with None => Err (EMsg 72) | Some t => Ok t end) widths = Ok outs /\ Forall2 rendered layout outs /\ Forall (Forall proper) layout) as (outs & -> & HR & HP).
  { clear U. induction H as [|w bs widths layout (_ & Hp & H) _ (outs & E & HR & HP)]; cbn [omap]; [exists []; now repeat split|].
    destruct (H (rustfmt_config (w + 4)) (int_display (w + 4))) as (out & Er & Ho); [now apply int_display_iff|apply config_width|apply config_imports|].
    rewrite Er. cbn [obind]. rewrite E. cbn [obind]. exists (out :: outs). split; [reflexivity|]. split; now constructor. }
  cbn [obind]. clear H U. revert HP. induction HR as [|bs out layout outs Ho _ IH]; intros HP; [reflexivity|]. inversion HP as [|? ? Hp HP']; subst. cbn [omap].
  destruct (rendered_split _ _ Ho Hp) as (tail & ->). cbn [tl]. rewrite removelast_map_snoc. cbn [obind]. rewrite (IH HP'). cbn [obind map]. f_equal. f_equal.
  rewrite map_map. apply map_ext_in. intros b Hb. apply dedent_piece. now apply (proj1 (Forall_forall _ _) Hp).
Qed.
Print Assumptions C60_texts.

(** If rustfmt keeps to the width it is given, every text keeps to the requested width. *)
Theorem C60_width : forall e p widths stmts layout r, uses e p -> Forall2 (fun w bs => 0 <= w /\ lays_out e p stmts (w + 4) bs) widths layout ->
  (forall w number config out, In w widths -> decimal (w + 4) number -> sets config (text "max_width") number -> run_rustfmt e p config (main_source stmts) = Some out -> fits (w + 4) out) ->
  format_stmts e widths stmts = Ok r -> Forall2 (fun w ts => Forall (fits w) ts) widths r.
Proof.
  intros e p widths stmts layout r U H F E. rewrite (C60_texts e p widths stmts layout U) in E; [|clear -H; induction H as [|? ? ? ? (_ & H) ? ?]; constructor; auto].
  injection E as <-. clear U. induction H as [|w bs widths layout (Hw & _ & Hp & H) _ IH]; [constructor|]. cbn [map]. constructor; [|apply IH; intros; apply (F w0 number config); auto; now right].
  destruct (H (rustfmt_config (w + 4)) (int_display (w + 4))) as (out & Er & Ho); [now apply int_display_iff|apply config_width|apply config_imports|].
  assert (fits (w + 4) out) as Hf by (eapply (F w); [now left|apply int_display_iff; reflexivity|apply config_width|exact Er]).
  apply Forall_map, Forall_forall. intros b Hb a l c E Hl. destruct l as [|x l]; [cbn; lia|].
  destruct (occurs_line (x :: l) Hl ltac:(discriminate) b) as (line & Hin & (u & v & Eline)); [now exists a, c|].
  assert (Hnn : ~ In 10 line) by (destruct (proj1 (Forall_forall _ _) Hp b Hb) as (K & _); exact (proj1 (Forall_forall _ _) K line Hin)).
  assert (occurs (text "    " ++ line) out) as (o1 & o2 & Eo).
  { destruct Ho as (t & Ht & ->). do 4 apply occurs_app_r. apply occurs_app_r. clear -Ht Hb Hin Eline. induction Ht as [|b0 bs semi t Ht IH _]; [destruct Hb|]. destruct Hb as [->|Hb].
    - apply occurs_app_r, occurs_app_l. apply (line_occurs _ _ (text "    " ++ line)); [|exists [], []; cbn [app]; now rewrite app_nil_r]. unfold indented. apply in_map_iff. exists line. split; [|exact Hin]. subst line. destruct u; reflexivity.
    - do 7 apply occurs_app_r. now apply IH. }
  assert (zlen (text "    " ++ line) <= w + 4) as Hlen.
  { apply (Hf o1 (text "    " ++ line) o2 Eo). intros K. apply in_app_or in K as [K|K]; [|contradiction]. vm_compute in K. firstorder discriminate. }
  rewrite zlen_app in Hlen. change (zlen (text "    ")) with 4 in Hlen. subst line. rewrite !zlen_app in Hlen. pose proof (zlen_nonneg u). pose proof (zlen_nonneg v). lia.
Qed.
Print Assumptions C60_width.

(** Without rustfmt, or if it fails for one of the widths, there is an error: never a script with made-up texts. *)
Theorem C60_fails : forall e widths stmts,
  (~ (exists p, uses e p) -> exists er, format_stmts e widths stmts = Err er) /\
  (forall p w, uses e p -> In w widths -> (forall config, run_rustfmt e p config (main_source stmts) = None) -> exists er, format_stmts e widths stmts = Err er) /\
  (forall r, format_stmts e widths stmts = Ok r -> length r = length widths).
Proof.
  intros e widths stmts. assert (forall (A : Type) (g : A -> outcome (list (list Z))) l r, omap g l = Ok r -> length r = length l) as L.
  { intros A g. induction l as [|x l IH]; intros r E; cbn [omap] in E; [injection E as <-; reflexivity|]. destruct (g x); try discriminate. cbn [obind] in E. destruct (omap g l) eqn:El; try discriminate. cbn [obind] in E. injection E as <-. cbn [length]. now rewrite (IH a0). }
  unfold format_stmts, format_token_stream. rewrite program_source. split; [|split].
  - intros H. destruct (which_rustfmt e) as [p|] eqn:E; [exfalso; apply H; exists p; now apply uses_which|]. eexists. reflexivity.
  - intros p w U Hw Hf. apply uses_which in U. rewrite U.
    assert (omap (fun w => match run_rustfmt e p (rustfmt_config (w + 4)) (main_source stmts) with None => Err (EMsg 72) | Some t => Ok t end) widths = Err (EMsg 72)) as ->; [|eexists; reflexivity].
    destruct widths as [|w0 widths]; [destruct Hw|]. cbn [omap]. rewrite Hf. reflexivity.
  - intros r. destruct (which_rustfmt e) as [p|]; [|discriminate]. destruct (omap _ widths) as [outs| |] eqn:Eo; try discriminate. cbn [obind]. intros E. apply L in E. rewrite E. clear E.
    revert outs Eo. clear. induction widths as [|w widths IH]; intros outs E; cbn [omap] in E; [injection E as <-; reflexivity|]. destruct (run_rustfmt _ _ _ _); try discriminate. cbn [obind] in E. destruct (omap _ widths) eqn:El; try discriminate. cbn [obind] in E. injection E as <-. cbn [length]. now rewrite (IH _ eq_refl).
Qed.
Print Assumptions C60_fails.

(** So the ops of a script expanded with debugging carry the texts of the lines they stand for. *)
Theorem C60_tags : forall R S args f s G t e chars p, parse_script R args f = Ok s -> expand R S args f = Ok G -> Spec_MacroParse.block R (fn_block f) t -> ir_debug s = true ->
  (forall widths stmts, src_format S widths stmts = format_with e chars widths stmts) -> uses e p ->
  exists ls, tlines R S (fn_block f) ls /\ (forall ls', tlines R S (fn_block f) ls' -> ls' = ls) /\
  let lines := filter (fun x => emits (snd x)) ls in
  length (ge_script G) = length lines /\
  forall layout, Forall2 (fun w bs => lays_out e p (map (fun x => chars (fst x)) lines) (w + 4) bs) [30; 40; 60; 80] layout ->
  forall k src st o, nth_error lines k = Some (src, st) -> nth_error (ge_script G) k = Some o ->
    stands_for st (t_op o) /\
    t_src_code o = map (fun x => (fst x, utf8 (block_text (nth k (snd x) [])))) (combine [30; 40; 60; 80] layout).
Proof.
  intros R S args f s G t e chars p Hs HG Hb Hd HS U. destruct (C55_script R S args f s G Hs HG t Hb) as (ls & formatted & g & code & H1 & H2 & H3). cbv zeta in H3. destruct H3 as (HL & _ & HC & HF & HN).
  exists ls. split; [exact H1|]. split; [exact H2|]. cbv zeta. split; [exact HL|]. intros layout HLay k src st o Hk Ho.
  destruct (nth_error code k) as [em|] eqn:Ee; [|apply nth_error_None in Ee; assert (k < length (ge_script G))%nat by (apply nth_error_Some; congruence); lia].
  destruct (HN k src st em o Hk Ee Ho) as (A & _ & _ & B). split; [exact A|]. rewrite HS in HF. unfold format_with in HF. rewrite map_map in HF.
  rewrite (C60_texts e p [30; 40; 60; 80] (map (fun x => chars (fst x)) (filter (fun x => emits (snd x)) ls)) layout U HLay) in HF. injection HF as <-.
  assert (Forall (fun l => length l = length (filter (fun x => emits (snd x)) ls)) (map (map utf8) (map (map block_text) layout))) as Hlen.
  { apply Forall_map, Forall_map. clear -HLay. induction HLay as [|w bs ws layout (E & _) _ IH]; constructor; [|exact IH]. now rewrite !map_length, E, map_length. }
  destruct (B Hd Hlen) as (_ & _ & -> & _). assert (Hkl : (k < length (filter (fun x => emits (snd x)) ls))%nat) by (apply nth_error_Some; congruence).
  clear -HLay Hkl. induction HLay as [|w bs ws layout (E & _) _ IH]; [reflexivity|]. cbn [map combine fst snd]. f_equal; [|exact IH]. f_equal.
  rewrite (nth_indep _ "" (utf8 (block_text []))) by (rewrite !map_length, E, map_length; exact Hkl). now rewrite !map_nth.
Qed.
Print Assumptions C60_tags.

(** A rustfmt that always writes the same *)
Definition writes (out : list Z) : tools := Tools (Some (text "rustfmt")) None (fun _ _ _ => Some out).
Definition quoted (s : list Z) : list Z := [34] ++ s ++ [34].
Definition ex_literal : list Z := quoted (text "a" ++ newline ++ text "    b").
Definition ex_call : list Z := text "f(" ++ ex_literal ++ text ")".
Definition ex_main (body : list Z) : list Z := text "fn main() {" ++ newline ++ text "    " ++ marker ++ text "();" ++ body ++ newline ++ text "}" ++ newline.
Definition ex_line (s : list Z) : list Z := newline ++ text "    " ++ s ++ text ";" ++ newline ++ text "    " ++ marker ++ text "()".
(** What is not guaranteed: a string literal over several lines is altered; a statement mentioning the marker is cut in two, so there
    are more texts than statements; without the marker in the output there is a panic; carriage returns stay at the front. *)
Theorem C60_texts_refuted :
  (exists t, format_stmts (writes (ex_main (ex_line ex_call))) [30] [ex_call] = Ok [[t]] /\ occurs ex_literal ex_call /\ ~ occurs ex_literal t) /\
  (exists t u, format_stmts (writes (ex_main (ex_line (text "f(" ++ marker ++ text "())")))) [30] [text "f(" ++ marker ++ text "())"] = Ok [[t; u]]) /\
  (forall stmts, format_stmts (writes (text "fn main() {}")) [30] stmts = Panic) /\
  (exists t, format_stmts (writes (text "fn main() {" ++ [13; 10] ++ text "    " ++ marker ++ text "();" ++ [13; 10] ++ text "    OP_DUP;" ++ [13; 10] ++ text "    " ++ marker ++ text "()" ++ [13; 10] ++ text "}" ++ [13; 10])) [30] [text "OP_DUP"] = Ok [[13 :: t]]).
Proof.
  split; [|split; [|split]].
  - eexists. split; [vm_compute; reflexivity|]. split; [exists (text "f("), (text ")"); reflexivity|].
    intros (a & b & E). assert (forall n, strip ex_literal (skipn n (text "f(" ++ quoted (text "a" ++ newline ++ text "b") ++ text ");")) = None) as K.
    { intros n. do 12 (destruct n as [|n]; [vm_compute; reflexivity|]). destruct n; vm_compute; reflexivity. }
    specialize (K (length a)). vm_compute (text "f(" ++ quoted (text "a" ++ newline ++ text "b") ++ text ");") in K. rewrite E in K. rewrite skipn_app_exact in K by reflexivity. rewrite strip_app in K. discriminate.
  - eexists. eexists. vm_compute. reflexivity.
  - intros stmts. reflexivity.
  - eexists. vm_compute. reflexivity.
Qed.
Print Assumptions C60_texts_refuted.

(** Two statements, one of them over several lines, with a blank line *)
Definition ex_blocks : list block := [[text "OP_DUP;"]; [text "f("; text "    a,"; []; text "    b,"; text ");"]].
Definition ex_out : list Z := ex_main (ex_line (text "OP_DUP") ++ text ";" ++ newline ++ block_text (indented [text "f("; text "    a,"; []; text "    b,"; text ");"]) ++ newline ++ text "    " ++ marker ++ text "()").
Example C60_nonvacuous : exists e p stmts, uses e p /\ Forall2 (fun w bs => lays_out e p stmts (w + 4) bs) [30; 40] [ex_blocks; ex_blocks] /\ fits 34 (text "    a,") /\
  format_stmts e [30; 40] stmts = Ok (repeat [text "OP_DUP;"; text "f(" ++ newline ++ text "    a," ++ newline ++ newline ++ text "    b," ++ newline ++ text ");"] 2).
Proof.
  assert (forall (c : Z) (t : list Z), In c [59; 41; 123] -> ~ space_char c) as Hs by (intros c t [<-|[<-|[<-|[]]]]; unfold space_char; cbn [In]; lia).
  assert (NL : forall s : list Z, existsb (Z.eqb 10) s = false -> ~ In 10 s).
  { intros s E H. assert (existsb (Z.eqb 10) s = true) by (apply existsb_exists; exists 10; split; [exact H|reflexivity]). congruence. }
  assert (NM : forall b : block, (length (block_text b) < 44)%nat -> ~ occurs marker (block_text b)).
  { intros b H (u & v & E). rewrite E, !app_length in H. change (length marker) with 44%nat in H. lia. }
  assert (P : Forall proper ex_blocks).
  { constructor; [|constructor; [|constructor]].
    - split; [repeat constructor; apply NL; reflexivity|]. split; [eexists; eexists; split; [reflexivity|discriminate]|]. split; [exists (text "OP_DUP"), 59; split; [reflexivity|apply (Hs 59 []); cbn; auto]|]. apply NM. vm_compute. lia.
    - split; [repeat constructor; apply NL; reflexivity|]. split; [eexists; eexists; split; [reflexivity|discriminate]|]. split; [exists (text "f(" ++ newline ++ text "    a," ++ newline ++ newline ++ text "    b," ++ newline ++ text ")"), 59; split; [reflexivity|apply (Hs 59 []); cbn; auto]|]. apply NM. vm_compute. lia. }
  assert (R : rendered ex_blocks ex_out).
  { eexists. split; [eapply BodyStmt; [eapply BodyStmt with (semicolon := false); [apply BodyEnd|now right]|now left]|]. vm_compute. reflexivity. }
  exists (writes ex_out), (text "rustfmt"), [text "OP_DUP"; text "f(a, b)"]. split; [left; split; [reflexivity|discriminate]|].
  assert (L : forall w, lays_out (writes ex_out) (text "rustfmt") [text "OP_DUP"; text "f(a, b)"] w ex_blocks).
  { intros w. split; [reflexivity|]. split; [exact P|]. intros. exists ex_out. split; [reflexivity|exact R]. }
  split; [constructor; [apply L|constructor; [apply L|constructor]]|].
  split; [|vm_compute; reflexivity]. intros a l b E _. apply (f_equal zlen) in E. rewrite !zlen_app in E. change (zlen (text "    a,")) with 6 in E. pose proof (zlen_nonneg a). pose proof (zlen_nonneg b). lia.
Qed.

(** ... and a function whose statements, as printed by [ex_source], rustfmt puts on one line each *)
Definition ex_stmts : list (list Z) := map text [""; "let z"; ""; "let d"; ""; ""; "let z"; ""; "let k"; ""].
Definition ex_layout : list block := map (fun s => [s ++ text ";"]) ex_stmts.
Definition ex_printed : list Z :=
  text "fn main() {" ++ newline ++ text "    " ++ marker ++ text "();" ++
  fold_right (fun b t => newline ++ block_text (indented b) ++ newline ++ text "    " ++ marker ++ text "()" ++ text ";" ++ t) (newline ++ text "}" ++ newline) ex_layout.
Definition ex_debug_source : source :=
  Source (src_stmt ex_source) (src_input ex_source) (format_with (writes ex_printed) text) (src_deref ex_source) (src_file ex_source) (src_script_pos ex_source) (src_input_pos ex_source).
Example C60_tags_nonvacuous : exists s G t ls o, parse_script ex_rust debug_args ex_fn = Ok s /\ expand ex_rust ex_debug_source debug_args ex_fn = Ok G /\ Spec_MacroParse.block ex_rust (fn_block ex_fn) t /\ ir_debug s = true /\
  (forall widths stmts, src_format ex_debug_source widths stmts = format_with (writes ex_printed) text widths stmts) /\ uses (writes ex_printed) (text "rustfmt") /\
  tlines ex_rust ex_debug_source (fn_block ex_fn) ls /\
  Forall2 (fun w bs => lays_out (writes ex_printed) (text "rustfmt") (map (fun x => text (fst x)) (filter (fun x => emits (snd x)) ls)) (w + 4) bs) [30; 40; 60; 80] (repeat ex_layout 4) /\
  nth_error (ge_script G) 1 = Some o /\ t_op o = OCode OP_CAT /\ t_src_code o = [(30, "let z;"); (40, "let z;"); (60, "let z;"); (80, "let z;")].
Proof.
  assert (Hb : Spec_MacroParse.block ex_rust (fn_block ex_fn) ex_tree) by exact C54_body_nonvacuous.
  assert (Ht : exists ts, tparse_stmts ex_rust ex_debug_source (fn_block ex_fn) = Ok ts /\ map (fun x => text (fst x)) (filter (fun x => emits (snd x)) (tbody ts)) = ex_stmts) by (eexists; split; [vm_compute; reflexivity|vm_compute; reflexivity]).
  destruct Ht as (ts & Et & Ets).
  assert (Hsim : Forall Proofs_MacroParse2.simple (Spec_Macro.body ex_tree)) by (vm_compute; repeat constructor).
  assert (P : Forall proper ex_layout).
  { apply Forall_map, Forall_forall. intros x Hx. apply in_map_iff in Hx as (s & <- & Hs).
    assert (Hk : forall s0, In s0 [""; "let z"; ""; "let d"; ""; ""; "let z"; ""; "let k"; ""] -> (existsb (Z.eqb 10) (text s0 ++ text ";") = false /\ (length (text s0 ++ text ";") < 44)%nat /\ text s0 ++ text ";" <> [])).
    { intros s0 H. cbn [In] in H. repeat (destruct H as [<-|H]; [split; [reflexivity|split; [cbn; lia|discriminate]]|]). destruct H. }
    destruct (Hk s Hs) as (A & B & C). split; [|split; [|split]].
    - repeat constructor. intros H. assert (existsb (Z.eqb 10) (text s ++ text ";") = true) by (apply existsb_exists; exists 10; split; [exact H|reflexivity]). congruence.
    - exists (text s ++ text ";"), []. split; [reflexivity|exact C].
    - exists (text s), 59. split; [reflexivity|]. unfold space_char. cbn [In]. lia.
    - intros (u & v & E). cbn [block_text] in E. rewrite E, !app_length in B. change (length marker) with 44%nat in B. lia. }
  assert (R : rendered ex_layout ex_printed).
  { eexists. split; [|reflexivity]. induction ex_layout as [|b l IH]; [exact BodyEnd|]. cbn [fold_right]. apply (BodyStmt b l true); [|now left]. apply IH. now inversion P. }
  assert (Hs : exists s, parse_script ex_rust debug_args ex_fn = Ok s /\ ir_debug s = true) by (eexists; split; [vm_compute; reflexivity|reflexivity]). destruct Hs as (s & Es & Ed).
  assert (HG : exists G o, expand ex_rust ex_debug_source debug_args ex_fn = Ok G /\ nth_error (ge_script G) 1 = Some o /\ t_op o = OCode OP_CAT /\ t_src_code o = [(30, "let z;"); (40, "let z;"); (60, "let z;"); (80, "let z;")]).
  { assert (K : match expand ex_rust ex_debug_source debug_args ex_fn with Ok G => option_map (fun o => (t_op o, t_src_code o)) (nth_error (ge_script G) 1) | _ => None end = Some (OCode OP_CAT, [(30, "let z;"); (40, "let z;"); (60, "let z;"); (80, "let z;")])) by (vm_compute; reflexivity).
    destruct (expand ex_rust ex_debug_source debug_args ex_fn) as [G| |]; [|discriminate|discriminate]. exists G. destruct (nth_error (ge_script G) 1) as [o|]; [|discriminate]. exists o. cbn [option_map] in K. apply Some_inj in K. injection K as K1 K2. auto. }
  destruct HG as (G & o & EG & Eo & Ec & Eq). exists s, G, ex_tree, (tbody ts), o. split; [exact Es|]. split; [exact EG|]. split; [exact Hb|]. split; [exact Ed|]. split; [reflexivity|]. split; [left; split; [reflexivity|discriminate]|].
  split; [exact (proj1 (proj2 (proj2 (tstand_lines ex_rust ex_debug_source))) _ _ Hb _ Et Hsim)|]. rewrite Ets. split; [|split; [exact Eo|split; [exact Ec|exact Eq]]].
  assert (L : forall w, lays_out (writes ex_printed) (text "rustfmt") ex_stmts w ex_layout).
  { intros w. split; [reflexivity|]. split; [exact P|]. intros. exists ex_printed. split; [reflexivity|exact R]. }
  repeat (constructor; [apply L|]). constructor.
Qed.
