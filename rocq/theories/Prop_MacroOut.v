(** C55: the struct or enum, the method and the tagged script an annotated function is expanded to. *)
From Verif Require Import Base BaseLemmas Spec_Encoding Model_ByteArray Model_Opcode Model_Script Model_Behavior Model_Macro Spec_Script Spec_Macro Proofs_Macro Spec_Network Spec_MacroRun Prop_Macro2 Prop_MacroRun.
From Verif Require Import Model_MacroParse Spec_MacroParse Proofs_MacroParse Proofs_MacroParse2 Prop_MacroParse Model_MacroOut Spec_MacroOut Proofs_MacroOut Proofs_MacroOut2 Model_Address Model_Destination.
Local Open Scope string_scope.
Local Open Scope list_scope.
Local Open Scope Z_scope.

Section T.
Context (R : rust) (S : source) (args : list nested_meta) (f : item_fn) (s : ir_script) (G : generated) (Hs : parse_script R args f = Ok s) (HG : expand R S args f = Ok G).
Lemma inv : exists ts lines g code m, tparse_stmts R S (fn_block f) = Ok ts /\
  src_format S max_line_widths (make_stmt_token_streams ts) = Some lines /\ run_script (macro_of s) = Ok (g, code) /\
  match ir_variants s with
  | [] => Ok []
  | _ => enum_fields (map fst (ir_variants s)) (map (fun '(i, t) => field_of false i t) (combine (ir_inputs s) (input_texts S f))) (map ii_variants (ir_inputs s)) (fold_left (fun m v => insert v [] m) (map fst (ir_variants s)) [])
  end = Ok m /\
  G = Generated (ir_struct s) (sd_struct (ir_docs s))
        (match ir_variants s with
         | [] => GStruct (map (fun '(i, t) => field_of true i t) (combine (ir_inputs s) (input_texts S f)))
         | _ => GEnum (map (fun v => (v, docs_of (ir_docs s) v, match lookup v m with Some l => l | None => [] end)) (map fst (ir_variants s)))
         end)
        (match ir_crate s with Some c => c | None => "bitcoin_cash" end)
        (match src_deref S (ir_param_type s) with Some t => t | None => ir_param_type s end) (match src_deref S (ir_param_type s) with Some _ => true | None => false end)
        (fn_name f) ("__impl_" ++ fn_name f)%string (fn_attrs f) (ir_debug s) S
        (tag_ops (ir_debug s) S lines 0 code).
Proof.
  destruct (expand_inv _ _ _ _ _ HG) as (s' & ts & lines & g & code & m & E1 & E2 & E3 & E4 & E5 & _ & E6). assert (s' = s) by congruence. subst s'. destruct (script_fn _ _ _ _ Hs) as (Ef & _ & _). rewrite Ef in E5, E6. exists ts, lines, g, code, m. auto.
Qed.
Lemma fields_for is_pub : forall (ins : list ir_input) (l : list fn_arg), length ins = length l -> Forall2 (fun x fd => field_for is_pub (fst x) fd /\ fi_src fd = src_input S (snd x)) (combine ins l) (map (fun '(i, t) => field_of is_pub i t) (combine ins (map (src_input S) l))).
Proof. induction ins as [|i ins IH]; intros [|a l] E; cbn in *; try discriminate; constructor; [|apply IH; lia]. repeat split. Qed.

(** Name, docs, method and type of the items. *)
Theorem C55_items :
  ge_name G = ir_struct s /\ ge_docs G = sd_struct (ir_docs s) /\ ge_fn G = fn_name f /\ ge_fn_attrs G = fn_attrs f /\ ge_hidden_fn G = ("__impl_" ++ fn_name f)%string /\
  ge_crate G = match ir_crate s with Some c => c | None => "bitcoin_cash" end /\
  (forall t, src_deref S (ir_param_type s) = Some t -> ge_impl_type G = t /\ ge_by_ref G = true) /\ (src_deref S (ir_param_type s) = None -> ge_impl_type G = ir_param_type s /\ ge_by_ref G = false).
Proof. destruct inv as (ts & lines & g & code & m & _ & _ & _ & _ & ->). cbn. repeat (split; [reflexivity|]). split; [intros t ->; auto|intros ->; auto]. Qed.

(** Without variants: a struct with one public field per input, in order. *)
Theorem C55_struct : ir_variants s = [] ->
  exists fs, ge_item G = GStruct fs /\ Forall2 (fun x fd => field_for true (fst x) fd /\ fi_src fd = src_input S (snd x)) (combine (ir_inputs s) (tl (fn_inputs f))) fs /\ map fi_name fs = map ii_ident (ir_inputs s).
Proof.
  intros Hv. destruct inv as (ts & lines & g & code & m & _ & _ & _ & _ & ->). cbn [ge_item]. rewrite Hv. eexists. split; [reflexivity|]. destruct (script_fn _ _ _ _ Hs) as (_ & Hl & _). pose proof (fields_for true _ _ Hl) as HF. split; [exact HF|].
  unfold input_texts. revert Hl. generalize (ir_inputs s) (tl (fn_inputs f)). clear. induction l as [|i l IH]; intros [|a r] E; cbn in *; try discriminate; [reflexivity|]. f_equal. apply IH. lia.
Qed.

(** With variants: an enum with these variants, in order, each with its docs and the inputs that belong to it, in order. *)
Theorem C55_enum : ir_variants s <> [] -> NoDup (map fst (ir_variants s)) -> Forall (fun i => forall vs, ii_variants i = Some vs -> NoDup vs) (ir_inputs s) ->
  exists vs, ge_item G = GEnum vs /\
  Forall2 (fun v x => fst (fst x) = v /\ snd (fst x) = docs_of (ir_docs s) v /\
    Forall2 (fun y fd => field_for false (fst y) fd /\ fi_src fd = src_input S (snd y)) (filter (fun y => belongs v (fst y)) (combine (ir_inputs s) (tl (fn_inputs f)))) (snd x)) (map fst (ir_variants s)) vs.
Proof.
  intros Hv HN HD. destruct inv as (ts & lines & g & code & m & _ & _ & _ & Em & ->). cbn [ge_item]. remember (map fst (ir_variants s)) as names eqn:En. destruct (ir_variants s) as [|v0 vs0] eqn:Ev; [contradiction|]. eexists. split; [reflexivity|].
  assert (HL : forall v, In v names -> lookup v m = Some (flat_map (fun '(f, w) => repeat f (occurrences v (match w with Some vs => vs | None => names end))) (combine (map (fun '(i, t) => field_of false i t) (combine (ir_inputs s) (input_texts S f))) (map ii_variants (ir_inputs s))))).
  { intros v Hv'. rewrite (enum_fields_lookup _ _ _ _ _ Em v), init_lookup by now left. reflexivity. }
  assert (K : forall l, (forall v, In v l -> In v names) -> Forall2 (fun v x => fst (fst x) = v /\ snd (fst x) = docs_of (ir_docs s) v /\
    Forall2 (fun y fd => field_for false (fst y) fd /\ fi_src fd = src_input S (snd y)) (filter (fun y => belongs v (fst y)) (combine (ir_inputs s) (tl (fn_inputs f)))) (snd x)) l (map (fun v => (v, docs_of (ir_docs s) v, match lookup v m with Some l => l | None => [] end)) l)).
  { induction l as [|v l IH]; intros Hin; cbn [map]; constructor; [|apply IH; intros w Hw; apply Hin; now right]. cbn [fst snd]. split; [reflexivity|]. split; [reflexivity|]. rewrite (HL v) by (apply Hin; now left). assert (Hvn : In v names) by (apply Hin; now left).
    destruct (script_fn _ _ _ _ Hs) as (_ & Hl & _). unfold input_texts. revert Hl HD. clear -HN Hvn. generalize (ir_inputs s) (tl (fn_inputs f)). induction l as [|i l IH]; intros [|a r] E HD; cbn in *; try discriminate; [constructor|]. inversion HD as [|? ? Hi HD']; subst. unfold belongs at 1. cbn [fst]. destruct (ii_variants i) as [vs|].
    - rewrite occ_nodup by now apply Hi. destruct (existsb (String.eqb v) vs); cbn [repeat app]; [constructor; [repeat split|]|]; apply IH; (lia || exact HD').
    - rewrite occ_nodup, existsb_in by assumption. cbn [repeat app]. constructor; [repeat split|]. apply IH; [lia|exact HD']. }
  apply K. auto.
Qed.

(** The fields of a variant (or of the struct) are what [ops()] pushes, under the names the script was checked with. *)
Theorem C55_inputs (v : string) (vals : string -> op) : NoDup (map fst (ir_variants s)) -> In v (map fst (variants (macro_of s))) ->
  exists fs ops, (match ge_item G with GStruct l => l = fs | GEnum l => exists d, In (v, d, fs) l end) /\ map fi_name fs = variant_pushes (macro_of s) v /\ input_ops G v vals = Some ops /\
  Forall2 (fun fd t => t_op t = vals (fi_name fd) /\ (ir_debug s = true -> exists pos, tagged_with t (src_file S) pos [(30, fi_src fd); (40, fi_src fd); (60, fi_src fd); (80, fi_src fd)] [Some (fi_name fd)] []) /\ (ir_debug s = false -> untagged t)) fs ops.
Proof.
  intros HN Hv. destruct inv as (ts & lines & g & code & m & _ & _ & _ & Em & EG).
  assert (HT : forall fs n, Forall2 (fun fd t => t_op t = vals (fi_name fd) /\ (ir_debug s = true -> exists pos, tagged_with t (src_file S) pos [(30, fi_src fd); (40, fi_src fd); (60, fi_src fd); (80, fi_src fd)] [Some (fi_name fd)] []) /\ (ir_debug s = false -> untagged t)) fs (push_inputs G v n fs vals)).
  { induction fs as [|fd fs IH]; intros n; cbn [push_inputs]; constructor; [|apply IH]. split; [apply tag_op_eq|]. rewrite EG. cbn [ge_debug ge_source]. split; intros ->; [|repeat split]. exists (src_input_pos S v n). repeat split. cbn [make_tagged_op t_src_line t_src_column]. symmetry. apply surjective_pairing. }
  destruct (script_fn _ _ _ _ Hs) as (_ & Hl & _). unfold input_ops. unfold variants, variant_pushes in *. cbn [macro_of ms_variants ms_name ms_inputs] in *. rewrite map_map. cbn [in_ident]. destruct (ir_variants s) as [|v0 vs0] eqn:Ev.
  - rewrite EG. cbn [ge_item]. eexists _, _. split; [reflexivity|]. split; [|split; [reflexivity|]].
    + unfold input_texts. revert Hl. generalize (ir_inputs s) (tl (fn_inputs f)). clear. induction l as [|i l IH]; intros [|a r] E; cbn in *; try discriminate; [reflexivity|]. f_equal. apply IH. lia.
    + rewrite <- EG. apply HT.
  - remember (map fst (v0 :: vs0)) as names eqn:En. assert (HL : lookup v m = Some (flat_map (fun '(f, w) => repeat f (occurrences v (match w with Some vs => vs | None => names end))) (combine (map (fun '(i, t) => field_of false i t) (combine (ir_inputs s) (input_texts S f))) (map ii_variants (ir_inputs s))))).
    { rewrite (enum_fields_lookup _ _ _ _ _ Em v), init_lookup by now left. reflexivity. }
    exists (match lookup v m with Some l => l | None => [] end), (push_inputs G v 0 (match lookup v m with Some l => l | None => [] end) vals). split; [|split; [|split]].
    + rewrite EG. cbn [ge_item]. exists (docs_of (ir_docs s) v). now apply (in_map (fun v => (v, docs_of (ir_docs s) v, match lookup v m with Some l => l | None => [] end))).
    + rewrite HL. unfold input_texts. revert Hl. clear -HN Hv. generalize (ir_inputs s) (tl (fn_inputs f)). induction l as [|i l IH]; intros [|a r] E; cbn in *; try discriminate; [reflexivity|]. rewrite map_app. f_equal; [|apply IH; lia]. destruct (ii_variants i) as [vs|].
      * clear. induction (occurrences v vs); cbn; congruence.
      * rewrite occ_nodup, existsb_in by assumption. reflexivity.
    + assert (HF : forall l, In v l -> find_variant v (map (fun v => (v, docs_of (ir_docs s) v, match lookup v m with Some l => l | None => [] end)) l) = Some (match lookup v m with Some l => l | None => [] end)).
      { induction l as [|w l IH]; [intros []|]. cbn [map find_variant]. destruct (String.eqb_spec v w) as [->|Hn]; [reflexivity|]. intros [->|H]; [contradiction|auto]. }
      rewrite EG at 1. cbn [ge_item]. rewrite HF by exact Hv. reflexivity.
    + apply HT.
Qed.

(** The script: one op per line of the function (but for [transmute]), in source order, each tagged with the text of that line at the
    widths 30, 40, 60 and 80 and the names of what it pushes - or, without debugging, with nothing. *)
Theorem C55_script (t : list stmt) : block R (fn_block f) t ->
  exists ls formatted g code, tlines R S (fn_block f) ls /\ (forall ls', tlines R S (fn_block f) ls' -> ls' = ls) /\
  let lines := filter (fun x => emits (snd x)) ls in
  length (ge_script G) = length lines /\ run_script (macro_of s) = Ok (g, code) /\ length code = length lines /\
  src_format S [30; 40; 60; 80] (map fst lines) = Some formatted /\
  forall k text st e t, nth_error lines k = Some (text, st) -> nth_error code k = Some e -> nth_error (ge_script G) k = Some t ->
    stands_for st (t_op t) /\ t_op t = op_of e /\
    (ir_debug s = false -> untagged t) /\
    (ir_debug s = true -> Forall (fun l => length l = length lines) formatted ->
       tagged_with t (src_file S) (src_script_pos S k) (map (fun x => (fst x, nth k (snd x) "")) (combine [30; 40; 60; 80] formatted)) (em_pushed e) (em_alt_pushed e)).
Proof.
  intros Hb. destruct inv as (ts & fl & g & code & m & Et & Ef & Er & _ & EG). destruct (C39_emits _ _ _ Er) as (Hsrc & Hop). cbn [macro_of ms_stmts] in Hsrc. destruct (script_fn _ _ _ _ Hs) as (_ & _ & Eb).
  assert (E1 := Hb). apply parses in E1. assert (ir_stmts s = t) as Est by congruence. rewrite (stmts_erase R S), Et in Eb. cbn [lift] in Eb. assert (map erase ts = ir_stmts s) as Ets by congruence.
  assert (Hsim : Forall simple (body t)).
  { rewrite <- Est. apply Forall_forall. intros x Hx. destruct (emits x) eqn:Ex; [|destruct x; try discriminate; exact I]. assert (Hin : In x (map em_src code)) by (rewrite Hsrc; apply filter_In; auto). apply in_map_iff in Hin as (e & <- & He). apply (proj1 (Forall_forall _ _) Hop) in He. unfold op_right in He. destruct (em_src e); first [exact I|destruct He]. }
  assert (Htl := proj1 (proj2 (proj2 (tstand_lines R S))) _ _ Hb _ Et Hsim).
  assert (Htx : map fst (filter (fun x => emits (snd x)) (tbody ts)) = make_stmt_token_streams ts) by (apply tbody_texts; [rewrite Ets, Est; exact Hsim|eapply stmts_proper; exact Et]).
  assert (Hco : map em_src code = map snd (filter (fun x => emits (snd x)) (tbody ts))).
  { rewrite Hsrc, <- Ets, <- tbody_snd. clear. induction (tbody ts) as [|x l IH]; [reflexivity|]. cbn [map filter]. destruct (emits (snd x)); cbn [map]; now rewrite IH. }
  change max_line_widths with [30; 40; 60; 80] in Ef. rewrite <- Htx in Ef.
  exists (tbody ts), fl, g, code. split; [exact Htl|]. split; [intros ls' Hl'; symmetry; exact (proj2 (proj2 (tline_fun R S)) _ _ Htl _ Hl')|]. cbv zeta. remember (filter (fun x => emits (snd x)) (tbody ts)) as lines eqn:El.
  assert (HL : length code = length lines) by (rewrite <- (map_length em_src), Hco; apply map_length).
  rewrite EG. cbn [ge_script]. split; [now rewrite tag_length|]. split; [exact Er|]. split; [exact HL|]. split; [exact Ef|].
  intros k text st e tg Hk He Ht. apply tag_nth in Ht as (e' & He' & ->). assert (e' = e) by congruence. subst e'. cbn [Nat.add]. rewrite tag_op_eq.
  assert (Hst : em_src e = st). { apply (map_nth_error em_src) in He. apply (map_nth_error snd) in Hk. rewrite Hco in He. rewrite Hk in He. now injection He. }
  split; [rewrite <- Hst; apply value_right; eapply Forall_forall; [exact Hop|]; eapply nth_error_In; exact He|]. split; [reflexivity|]. split; intros ->; [repeat split|]. intros Hlen. assert (Hkl : (k < length lines)%nat) by (apply nth_error_Some; congruence). unfold tagged_with. cbn [make_tagged_op t_src_file t_src_line t_src_column t_src_code t_pushed_names t_alt_pushed_names]. repeat split; [symmetry; apply surjective_pairing|].
  unfold formatted_stmts, max_line_widths. clear -Hlen Hkl. revert fl Hlen. generalize [30; 40; 60; 80]. induction l as [|w l IH]; intros [|a fl] HF; try reflexivity. inversion HF; subst. cbn [combine map fst snd]. rewrite (nth_error_nth' _ "") by lia. f_equal. now apply IH.
Qed.
End T.
Print Assumptions C55_items.
Print Assumptions C55_struct.
Print Assumptions C55_enum.
Print Assumptions C55_inputs.
Print Assumptions C55_script.
