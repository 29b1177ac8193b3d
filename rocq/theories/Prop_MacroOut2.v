(** C55 continued: debugging information does not change what is generated, where the expansion panics, spending with the generated
    items, and the two scripts the library itself defines with the macro (scripts.rs:17-31). *)
From Verif Require Import Base BaseLemmas Spec_Encoding Model_ByteArray Model_Opcode Model_Script Model_Behavior Model_Macro Spec_Script Spec_Macro Proofs_Macro Spec_Network Proofs_Network2 Spec_MacroRun Prop_Macro2 Prop_MacroRun.
From Verif Require Import Model_MacroParse Spec_MacroParse Proofs_MacroParse Proofs_MacroParse2 Prop_MacroParse Model_MacroOut Spec_MacroOut Proofs_MacroOut Proofs_MacroOut2 Prop_MacroOut Model_Address Model_Destination Prop_OffChain.
Local Open Scope string_scope.
Local Open Scope list_scope.
Local Open Scope Z_scope.

Definition debug_arg (b : bool) : nested_meta := NMeta (MNameValue (One "debug") (LBool b)).
Lemma attr_loop_app R l r : forall a, parse_attr_loop R a (l ++ r) = do x <- parse_attr_loop R a l; parse_attr_loop R x r.
Proof. induction l as [|n l IH]; intros a; [reflexivity|]. cbn [app parse_attr_loop]. destruct (parse_attr R a n); [apply IH|reflexivity|reflexivity]. Qed.
Lemma attrs_debug R args a b : parse_attrs R args = Ok a -> parse_attrs R (args ++ [debug_arg b]) = Ok (MacroAttrs (ma_struct a) (ma_crate a) (ma_variants a) (Some b)).
Proof.
  destruct args as [|n args]; [discriminate|]. cbn [app parse_attrs]. destruct n as [[p| |]|]; try discriminate. destruct (single_path p); try discriminate. intros E. rewrite attr_loop_app, E. reflexivity.
Qed.
Lemma script_debug R args f s b : parse_script R args f = Ok s ->
  parse_script R (args ++ [debug_arg b]) f = Ok (IrScript (ir_struct s) (ir_crate s) (ir_variants s) (ir_param_type s) (ir_inputs s) (ir_stmts s) (ir_docs s) b (ir_fn s)).
Proof.
  unfold parse_script. destruct (parse_attrs R args) as [a| |] eqn:Ea; try discriminate. rewrite (attrs_debug _ _ _ b Ea). cbn [obind ma_struct ma_crate ma_variants ma_debug]. destruct (fn_returns f); [discriminate|]. destruct (parse_docs _ _ _ _); try discriminate. cbn [obind].
  destruct (parse_script_inputs _) as [[ins ty]| |]; try discriminate. cbn [obind]. destruct (parse_stmts _ _); try discriminate. cbn [obind]. intros E. injection E as <-. reflexivity.
Qed.
(** Appending [debug = b] changes the tags only: the items are the same, and so are the ops of the script and of every value of
    the inputs, hence their bytes. *)
Theorem C55_debug (R : rust) (S : source) (args : list nested_meta) (f : item_fn) (G : generated) (b : bool) : expand R S args f = Ok G ->
  exists G', expand R S (args ++ [NMeta (MNameValue (One "debug") (LBool b))]) f = Ok G' /\ ge_debug G' = b /\ ge_name G' = ge_name G /\ ge_docs G' = ge_docs G /\ ge_item G' = ge_item G /\
  map t_op (ge_script G') = map t_op (ge_script G) /\ script_ser_ops (ge_script G') = script_ser_ops (ge_script G) /\
  (forall v vals, option_map (map t_op) (input_ops G' v vals) = option_map (map t_op) (input_ops G v vals)) /\
  (forall v vals, option_map script_ser_ops (input_ops G' v vals) = option_map script_ser_ops (input_ops G v vals)).
Proof.
  intros E. change (NMeta (MNameValue (One "debug") (LBool b))) with (debug_arg b). unfold expand in *. destruct (parse_script R args f) as [s| |] eqn:Es; try discriminate. rewrite (script_debug _ _ _ _ b Es). cbn [obind] in *. destruct (tparse_stmts R S (fn_block f)) as [ts| |]; try discriminate. cbn [obind] in *.
  unfold generate in *. destruct (src_format S max_line_widths (make_stmt_token_streams ts)) as [lines|]; [|discriminate].
  change (run_script (macro_of (IrScript (ir_struct s) (ir_crate s) (ir_variants s) (ir_param_type s) (ir_inputs s) (ir_stmts s) (ir_docs s) b (ir_fn s)))) with (run_script (macro_of s)).
  destruct (run_script (macro_of s)) as [[g code]| |]; try discriminate. cbn [obind] in *. cbv zeta in *. cbn [ir_variants ir_inputs ir_fn ir_struct ir_docs ir_crate ir_param_type ir_debug]. destruct (match ir_variants s with [] => Ok [] | _ => _ end) as [m| |]; try discriminate. cbn [obind] in *. destruct (fn_const_generics (ir_fn s)); [discriminate|]. apply Ok_inj in E. subst G.
  eexists. split; [reflexivity|]. cbn [ge_debug ge_name ge_docs ge_item ge_script]. repeat (split; [reflexivity|]).
  assert (H1 : forall d d', map t_op (tag_ops d S lines 0 code) = map t_op (tag_ops d' S lines 0 code)) by (intros; now rewrite !tag_ops_ops). split; [apply H1|]. split; [unfold script_ser_ops; now rewrite (H1 b (ir_debug s))|].
  match goal with |- (forall v vals, option_map _ (input_ops ?A v vals) = option_map _ (input_ops ?B v vals)) /\ _ => set (G1 := A); set (G2 := B) end.
  assert (H2 : forall v vals, option_map (map t_op) (input_ops G1 v vals) = option_map (map t_op) (input_ops G2 v vals)).
  { intros v vals. unfold input_ops. change (ge_item G1) with (ge_item G2). destruct (ge_item G2) as [fs|vs]; cbn [option_map]; [now rewrite !push_inputs_ops|]. destruct (find_variant v vs); cbn [option_map]; [now rewrite !push_inputs_ops|reflexivity]. }
  split; [exact H2|]. intros v vals. specialize (H2 v vals). destruct (input_ops G1 v vals), (input_ops G2 v vals); cbn [option_map] in *; try discriminate; [|reflexivity]. injection H2 as H2. unfold script_ser_ops. now rewrite H2.
Qed.
Print Assumptions C55_debug.

(** ** Panics *)
Lemma op_if_no_panic l : tparse_op_if l <> Panic.
Proof.
  unfold tparse_op_if. assert (H : forall l p, tparse_op_if_loop p l <> Panic).
  { clear. induction l as [|s l IH]; intros p; cbn [tparse_op_if_loop]; [discriminate|]. destruct (tparse_op_if_step p s) eqn:E; cbn [obind]; [apply IH|discriminate|]. exfalso. unfold tparse_op_if_step in E. destruct s as [ |src o| | | ]; try discriminate. destruct (_ || _); [discriminate|]. destruct (String.eqb _ _); [destruct (tp_stack p); discriminate|]. destruct (String.eqb _ _); [destruct (tp_stack p); discriminate|discriminate]. }
  specialize (H l (TIfParser [] [] true)). destruct (tparse_op_if_loop _ l) as [p| |]; cbn [obind]; [destruct (tp_stack p); discriminate|discriminate|congruence].
Qed.
Lemma push_variant_names v i : forall l l', push_variant v i l = Ok l' -> map fst l' = map fst l /\ In v (map fst l).
Proof.
  induction l as [|[w s] l IH]; intros l' E; cbn [push_variant] in E; [discriminate|]. destruct (String.eqb_spec w v) as [->|].
  - apply Ok_inj in E. subst l'. cbn. auto.
  - destruct (push_variant v i l) eqn:El; try discriminate. cbn [obind] in E. apply Ok_inj in E. subst l'. destruct (IH _ eq_refl) as (Hm & Hi). cbn [map fst]. split; [congruence|now right].
Qed.
Lemma push_variants_names enum i vs : forall l l', push_variants enum vs i l = Ok l' -> map fst l' = map fst l /\ Forall (fun v => In v (map fst l)) vs.
Proof.
  induction vs as [|v vs IH]; intros l l' E; cbn [push_variants] in E; [apply Ok_inj in E; subst; auto|]. destruct (push_variant v i l) as [l1| |] eqn:E1; try discriminate. cbn [obind] in E. destruct enum; [|discriminate]. destruct (push_variant_names _ _ _ _ E1) as (H1 & H2). destruct (IH _ _ E) as (H3 & H4). rewrite H1 in H3, H4. split; [exact H3|]. constructor; assumption.
Qed.
Lemma run_inputs_named names enum : forall ins vs vs', run_inputs enum ins vs = Ok vs' -> map fst (vs_states vs) = names -> Forall (fun i => forall ns, in_variants i = Some ns -> Forall (fun v => In v names) ns) ins.
Proof.
  induction ins as [|i ins IH]; intros vs vs' E Hn; [constructor|]. cbn [run_inputs] in E. destruct (in_variants i) as [ns|] eqn:Ei; cbv zeta in E.
  - destruct (push_variants enum ns _ (vs_states vs)) as [l| |] eqn:El; try discriminate. cbn [obind] in E. destruct (push_variants_names _ _ _ _ _ El) as (H1 & H2). rewrite Hn in H2. constructor; [intros ns' Q; congruence|]. eapply IH; [exact E|]. cbn [vs_states]. congruence.
  - cbn [obind] in E. constructor; [intros ns' Q; congruence|]. eapply IH; [exact E|]. unfold vs_push. cbn [vs_states]. rewrite <- Hn. rewrite map_map. apply map_ext. now intros [].
Qed.
Lemma push_fields_ok f names : forall vs m, Forall (fun v => In v names) vs -> (forall v, In v names -> lookup v m <> None) -> exists m', push_fields vs f m = Ok m' /\ (forall v, In v names -> lookup v m' <> None).
Proof.
  induction vs as [|v vs IH]; intros m Hv Hm; cbn [push_fields]; [eauto|]. inversion Hv as [|? ? Hi Hv']; subst. destruct (lookup v m) as [l|] eqn:El; [|exfalso; now apply (Hm v)]. apply IH; [exact Hv'|]. intros w Hw. rewrite lookup_insert. destruct (String.eqb w v); [discriminate|now apply Hm].
Qed.
Lemma enum_fields_ok names : forall fs vars m, Forall (fun o => forall ns, o = Some ns -> Forall (fun v => In v names) ns) vars -> (forall v, In v names -> lookup v m <> None) -> exists m', enum_fields names fs vars m = Ok m'.
Proof.
  induction fs as [|f fs IH]; intros vars m Hv Hm; cbn [enum_fields]; [eauto|]. destruct vars as [|o vars]; [eauto|]. inversion Hv as [|? ? Ho Hv']; subst. destruct (push_fields_ok f names (match o with Some vs => vs | None => names end) m) as (m' & E & Hm'); [destruct o as [ns|]; [now apply Ho|now apply Forall_forall]|exact Hm|]. rewrite E. cbn [obind]. now apply IH.
Qed.
(** The expansion only panics where the parser or the stack tracker does, and on const generics. *)
Theorem C55_panics (R : rust) (S : source) (args : list nested_meta) (f : item_fn) : expand R S args f = Panic ->
  parse_script R args f = Panic \/ exists s, parse_script R args f = Ok s /\ (run_script (macro_of s) = Panic \/ fn_const_generics f = true).
Proof.
  unfold expand. destruct (parse_script R args f) as [s| |] eqn:Es; [|discriminate|auto]. intros E. right. exists s. split; [reflexivity|]. cbn [obind] in E. destruct (script_fn _ _ _ _ Es) as (Ef & Hl & Eb).
  rewrite (stmts_erase R S) in Eb. destruct (tparse_stmts R S (fn_block f)) as [ts| |]; try discriminate Eb. cbn [obind] in E. unfold generate in E. destruct (src_format S max_line_widths _); [|discriminate].
  destruct (run_script (macro_of s)) as [[g code]| |] eqn:Er; [|discriminate|now left]. right. cbn [obind] in E. cbv zeta in E. rewrite Ef in E. destruct (fn_const_generics f); [reflexivity|]. exfalso.
  assert (Hm : exists m, match ir_variants s with [] => Ok [] | _ :: _ => enum_fields (map fst (ir_variants s)) (map (fun '(i, t) => field_of false i t) (combine (ir_inputs s) (input_texts S f))) (map ii_variants (ir_inputs s)) (fold_left (fun m v => insert v [] m) (map fst (ir_variants s)) []) end = Ok m).
  { destruct (ir_variants s) as [|v0 vs0] eqn:Ev; [eauto|]. apply enum_fields_ok.
    - unfold run_script in Er. destruct (run_inputs _ _ _) as [vs| |] eqn:Ei; try discriminate. apply run_inputs_named with (names := map fst (v0 :: vs0)) in Ei.
      + cbn [macro_of ms_inputs] in Ei. clear -Ei. induction (ir_inputs s) as [|i l IH]; [constructor|]. cbn [map] in *. inversion Ei as [|? ? H1 H2]; subst. constructor; [exact H1|now apply IH].
      + cbn [vs_states]. unfold initial_states. cbn [macro_of ms_variants]. rewrite Ev. rewrite map_map. apply map_ext. now intros [].
    - intros v Hv. rewrite init_lookup by now left. discriminate. }
  destruct Hm as (m & Em). rewrite Em in E. discriminate.
Qed.
Print Assumptions C55_panics.

(** ** Spending *)
Lemma ser_ops_of s s' : map t_op s = map t_op s' -> script_ser_ops s = script_ser_ops s'.
Proof. unfold script_ser_ops. now intros ->. Qed.
(** A value of the generated struct or enum in the unlocking script, the generated script as locking script: the network starts the
    latter with the fields of that variant on the stack, first field deepest, each holding its value; and the items it ends with are named as
    the macro tracked them, unless a conditional is taken against the variant's predicate on the way. *)
Theorem C55_spend : forall E R S args f s G g code v p sigma vals ops unlock lock stack final,
  parse_script R args f = Ok s -> expand R S args f = Ok G -> NoDup (map fst (ir_variants s)) ->
  run_script (macro_of s) = Ok (g, code) -> script_clean (macro_of s) -> script_along coherent (macro_of s) -> In (v, p) (variants (macro_of s)) -> satisfies sigma p ->
  input_ops G v vals = Some ops -> Forall (fun t => push_op (t_op t)) ops -> Forall pushes code ->
  script_ser_ops ops = Ok unlock -> script_ser_ops (ge_script G) = Ok lock -> executes E (ba_data unlock) [] stack -> executes E (ba_data lock) stack final ->
  exists fs st main l, (match ge_item G with GStruct x => x = fs | GEnum x => exists d, In (v, d, fs) x end) /\
  In (v, st) (vs_states (g_vs g)) /\ map r_value main = stack /\
  Forall2 (fun fd i => r_label i = Some (fi_name fd) /\ pushes_data (vals (fi_name fd)) (r_value i)) fs (rev main) /\ decodes (ba_data lock) l /\
  ((exists items, map r_value items = final /\ map r_label items = map label_of (st_stack st)) \/ diverted E sigma code main l (Machine stack [] [] (ba_data lock))).
Proof.
  intros E R S args f s G g code v p sigma vals ops unlock lock stack final Hs HG HN Hr Hc Ha Hv Hsat Hin Hpush Hcode SU SL XU XL.
  destruct (C55_inputs R S args f s G Hs HG v vals HN) as (fs & ops' & Hfs & Hnames & Hin' & HF); [now apply in_map with (f := fst) in Hv|]. assert (ops' = ops) by congruence. subst ops'.
  assert (Hops : map t_op ops = map vals (map fi_name fs)). { clear -HF. induction HF as [|fd t fs ops (H & _) HF IH]; [reflexivity|]. cbn [map]. congruence. }
  assert (Hgs : map t_op (ge_script G) = map op_of code). { destruct (inv R S args f s G Hs HG) as (ts & lines & g' & code' & m & _ & _ & Er & _ & ->). cbn [ge_script]. rewrite tag_ops_ops. assert (code' = code) as -> by congruence. reflexivity. }
  set (values := map (fun n => (n, vals n)) (map fi_name fs)).
  assert (Hf1 : map fst values = variant_pushes (macro_of s) v) by (unfold values; rewrite map_map, <- Hnames; apply map_id).
  assert (Hf2 : map snd values = map t_op ops) by (unfold values; rewrite map_map, Hops; reflexivity).
  assert (Hto : forall l, map t_op (script_from_ops l) = l) by (intros l; unfold script_from_ops; rewrite map_map; apply map_id).
  destruct (C53_inputs E (macro_of s) v values unlock stack Hf1) as (_ & main & V & L & F).
  { rewrite Hf2. clear -Hpush. induction Hpush; constructor; assumption. }
  { rewrite <- SU. apply ser_ops_of. now rewrite Hto. }
  { exact XU. }
  rewrite <- V in XL. destruct (C53_final_stack E (macro_of s) g code v p sigma main lock final Hr Hc Ha Hv Hsat L Hcode) as (st & l & I & D & C); [rewrite <- SL; apply ser_ops_of; now rewrite Hto|exact XL|].
  exists fs, st, main, l. split; [exact Hfs|]. split; [exact I|]. split; [exact V|]. split; [|split; [exact D|rewrite <- V; exact C]].
  unfold values in F. rewrite map_map in F. clear -F; revert F; generalize (rev main); induction fs as [|fd fs IH]; intros r F; inversion F; subst; constructor; auto.
Qed.
Print Assumptions C55_spend.

(** ** The library's own scripts *)
Definition arg (x ty : string) : fn_arg := Typed [] (PIdent x true) ty.
Definition op_call (x : string) (args : list string) : expr := ECall false (EPath (One x)) (map (fun a => EPath (One a)) args).
Definition let_ (x : string) (e : expr) : rust_stmt := StLocal (PIdent x true) (Some e).
Definition crate_arg : nested_meta := NMeta (MNameValue (One "crate") (LStr [99; 114; 97; 116; 101])).
Definition hash_expr : expr := EOther "params.0.hash()".
(** scripts.rs:17-24 *)
Definition p2pkh_args : list nested_meta := [NMeta (MPath (One "P2PKHInputs")); crate_arg].
Definition p2pkh_fn : item_fn := ItemFn [] "p2pkh_script" false false [arg "params" "ParamsAddress<'_>"; arg "sig" "ByteArray"; arg "pubkey" "ByteArray"]
  [ StSemi (op_call "OP_DUP" ["pubkey"]); let_ "pk_hashed" (op_call "OP_HASH160" ["pubkey"]); let_ "pk_hash" hash_expr; StSemi (op_call "OP_EQUALVERIFY" ["pk_hashed"; "pk_hash"]);
    let_ "success" (op_call "OP_CHECKSIG" ["sig"; "pubkey"]) ].
(** scripts.rs:26-31 *)
Definition p2sh_args : list nested_meta := [NMeta (MPath (One "P2SHInputs")); crate_arg].
Definition p2sh_fn : item_fn := ItemFn [] "p2sh_script" false false [arg "params" "ParamsAddress<'_>"; arg "redeem_script" "ByteArray"]
  [ let_ "script_hashed" (op_call "OP_HASH160" ["redeem_script"]); let_ "script_hash" hash_expr; let_ "success" (op_call "OP_EQUAL" ["script_hashed"; "script_hash"]) ].
Section Library.
Context (R : rust) (S : source) (a : address).
Context (Hhash : expr_pushop R hash_expr = op_from_array (ad_hash a)) (Hident : ident_ok R [99; 114; 97; 116; 101] = true) (Hfmt : forall w l, src_format S w l <> None).
(** They expand to the scripts of Model_Destination.v, which C22 to C24 and C40 are about. *)
Theorem C55_p2pkh : exists G fs, expand R S p2pkh_args p2pkh_fn = Ok G /\ ge_name G = "P2PKHInputs" /\ ge_fn G = "p2pkh_script" /\
  ge_item G = GStruct fs /\ map (fun x => (fi_name x, fi_ty x, fi_pub x)) fs = [("sig", "ByteArray", true); ("pubkey", "ByteArray", true)] /\
  map t_op (ge_script G) = map t_op (p2pkh_script a) /\ script_ser_ops (ge_script G) = script_ser_ops (p2pkh_script a) /\
  (forall v g sigs vals, vals "sig" = op_from_array (ba_concat sigs (ba_new "sig_hash" [sg_flags g mod 256])) -> vals "pubkey" = op_from_array (ba_unnamed (sg_pubkey g)) ->
     exists ops, input_ops G v vals = Some ops /\ map t_op ops = map t_op (p2pkh_build_script g sigs) /\ map t_pushed_names ops = map t_pushed_names (p2pkh_build_script g sigs)).
Proof.
  assert (Hs : exists s, parse_script R p2pkh_args p2pkh_fn = Ok s /\ ir_inputs s = [IrInput "sig" "ByteArray" None []; IrInput "pubkey" "ByteArray" None []] /\ ir_variants s = [] /\ ir_struct s = "P2PKHInputs" /\ ir_fn s = p2pkh_fn /\
    ir_stmts s = [SOpcode (oper "OP_DUP" ["pubkey"] []); SOpcode (oper "OP_HASH160" ["pubkey"] ["pk_hashed"]); SPush (expr_pushop R hash_expr) (Some "pk_hash"); SOpcode (oper "OP_EQUALVERIFY" ["pk_hashed"; "pk_hash"] []); SOpcode (oper "OP_CHECKSIG" ["sig"; "pubkey"] ["success"])] /\ ir_debug s = true).
  { unfold parse_script, parse_attrs, p2pkh_args, crate_arg. cbn [single_path parse_attr_loop parse_attr String.eqb Ascii.eqb Bool.eqb parse_string_lit]. rewrite Hident. cbn [obind]. eexists. split; [reflexivity|]. repeat split. }
  destruct Hs as (s & Es & Ei & Ev & En & Ef & Est & Ed). unfold expand. rewrite Es. cbn [obind].
  assert (Ht : exists ts, tparse_stmts R S (fn_block p2pkh_fn) = Ok ts) by (eexists; reflexivity). destruct Ht as (ts & Et). rewrite Et. cbn [obind]. unfold generate. destruct (src_format S max_line_widths (make_stmt_token_streams ts)) as [lines|] eqn:El; [|now apply Hfmt in El].
  assert (Hr : exists g code, run_script (macro_of s) = Ok (g, code) /\ map emitted_value code = [OCode OP_DUP; OCode OP_HASH160; expr_pushop R hash_expr; OCode OP_EQUALVERIFY; OCode OP_CHECKSIG]).
  { unfold macro_of. rewrite Ei, Ev, En, Est. generalize (expr_pushop R hash_expr). intros o. eexists _, _. split; [vm_compute; reflexivity|reflexivity]. }
  destruct Hr as (g & code & Er & Ec). rewrite Er. cbn [obind]. cbv zeta. rewrite Ev, Ei, Ef, Ed. cbn [obind fn_const_generics p2pkh_fn]. eexists _, _. split; [reflexivity|]. cbn [ge_name ge_fn ge_item ge_script]. split; [exact En|]. split; [reflexivity|]. split; [reflexivity|]. split; [reflexivity|].
  assert (Hm : map t_op (tag_ops true S lines 0 code) = map t_op (p2pkh_script a)) by (rewrite tag_ops_ops, Ec, Hhash; reflexivity). split; [exact Hm|]. split; [now apply ser_ops_of|].
  intros v gg sigs vals H1 H2. eexists. split; [reflexivity|]. split; [|reflexivity]. rewrite push_inputs_ops. cbn [map combine field_of fi_name ii_ident input_texts tl fn_inputs p2pkh_fn]. rewrite H1, H2. reflexivity.
Qed.
Theorem C55_p2sh : exists G fs, expand R S p2sh_args p2sh_fn = Ok G /\ ge_name G = "P2SHInputs" /\ ge_fn G = "p2sh_script" /\
  ge_item G = GStruct fs /\ map (fun x => (fi_name x, fi_ty x, fi_pub x)) fs = [("redeem_script", "ByteArray", true)] /\
  map t_op (ge_script G) = map t_op (p2sh_script a) /\ script_ser_ops (ge_script G) = script_ser_ops (p2sh_script a).
Proof.
  assert (Hs : exists s, parse_script R p2sh_args p2sh_fn = Ok s /\ ir_inputs s = [IrInput "redeem_script" "ByteArray" None []] /\ ir_variants s = [] /\ ir_struct s = "P2SHInputs" /\ ir_fn s = p2sh_fn /\
    ir_stmts s = [SOpcode (oper "OP_HASH160" ["redeem_script"] ["script_hashed"]); SPush (expr_pushop R hash_expr) (Some "script_hash"); SOpcode (oper "OP_EQUAL" ["script_hashed"; "script_hash"] ["success"])] /\ ir_debug s = true).
  { unfold parse_script, parse_attrs, p2sh_args, crate_arg. cbn [single_path parse_attr_loop parse_attr String.eqb Ascii.eqb Bool.eqb parse_string_lit]. rewrite Hident. cbn [obind]. eexists. split; [reflexivity|]. repeat split. }
  destruct Hs as (s & Es & Ei & Ev & En & Ef & Est & Ed). unfold expand. rewrite Es. cbn [obind].
  assert (Ht : exists ts, tparse_stmts R S (fn_block p2sh_fn) = Ok ts) by (eexists; reflexivity). destruct Ht as (ts & Et). rewrite Et. cbn [obind]. unfold generate. destruct (src_format S max_line_widths (make_stmt_token_streams ts)) as [lines|] eqn:El; [|now apply Hfmt in El].
  assert (Hr : exists g code, run_script (macro_of s) = Ok (g, code) /\ map emitted_value code = [OCode OP_HASH160; expr_pushop R hash_expr; OCode OP_EQUAL]).
  { unfold macro_of. rewrite Ei, Ev, En, Est. generalize (expr_pushop R hash_expr). intros o. eexists _, _. split; [vm_compute; reflexivity|reflexivity]. }
  destruct Hr as (g & code & Er & Ec). rewrite Er. cbn [obind]. cbv zeta. rewrite Ev, Ei, Ef, Ed. cbn [obind fn_const_generics p2sh_fn]. eexists _, _. split; [reflexivity|]. cbn [ge_name ge_fn ge_item ge_script]. split; [exact En|]. split; [reflexivity|]. split; [reflexivity|]. split; [reflexivity|].
  assert (Hm : map t_op (tag_ops true S lines 0 code) = map t_op (p2sh_script a)) by (rewrite tag_ops_ops, Ec, Hhash; reflexivity). split; [exact Hm|]. now apply ser_ops_of.
Qed.
End Library.
Print Assumptions C55_p2pkh.
Print Assumptions C55_p2sh.

(** ** Exceptions and examples *)
Definition ex_source : source := Source (fun s => match s with StLocal (PIdent x _) _ => append "let " x | _ => "?" end) (fun a => match a with Typed _ (PIdent x _) ty => append x ty | _ => "?" end)
  (fun ws l => Some (map (fun _ => l) ws)) (fun t => if String.eqb t "&Params" then Some "Params" else None) "src/f.rs" (fun n => (Z.of_nat n + 10, 4)) (fun _ n => (Z.of_nat n + 5, 8)).
(** A const generic parameter makes the macro panic. *)
Theorem C55_const_generics_refuted : exists R S args f, rust_ok R /\ (exists s g code, parse_script R args f = Ok s /\ run_script (macro_of s) = Ok (g, code)) /\ expand R S args f = Panic.
Proof.
  exists ex_rust, ex_source, p2sh_args, (ItemFn [] "f" true false (fn_inputs p2sh_fn) (fn_block p2sh_fn)). split; [exact C54_rust_nonvacuous|]. split; [|vm_compute; reflexivity].
  eexists _, _, _. split; [vm_compute; reflexivity|vm_compute; reflexivity].
Qed.
Print Assumptions C55_const_generics_refuted.
(** [#[variant(A, A)]] gives the variant the same field twice (which rustc then rejects): hence the second hypothesis of C55_enum. *)
Definition twice_fn : item_fn := ItemFn [] "f" false false [arg "p" "Params"; Typed [Attribute (One "variant") (Some (MList (One "variant") [NMeta (MPath (One "A")); NMeta (MPath (One "A"))]))] (PIdent "x" true) "ByteArray"] [].
Theorem C55_duplicate_field_refuted : exists G vs, expand ex_rust ex_source [NMeta (MPath (One "In")); NMeta (MNameValue (One "A") (LStr [99]))] twice_fn = Ok G /\ ge_item G = GEnum vs /\
  map (fun x => (fst (fst x), map fi_name (snd x))) vs = [("A", ["x"; "x"])].
Proof. eexists _, _. split; [vm_compute; reflexivity|]. split; reflexivity. Qed.
Print Assumptions C55_duplicate_field_refuted.

Definition debug_args : list nested_meta := ex_args ++ [NMeta (MNameValue (One "debug") (LBool true))].
(** The example of Prop_MacroParse.v: hypotheses and results *)
Example C55_enum_nonvacuous : exists s G vs, parse_script ex_rust ex_args ex_fn = Ok s /\ expand ex_rust ex_source ex_args ex_fn = Ok G /\ ir_variants s <> [] /\ NoDup (map fst (ir_variants s)) /\
  Forall (fun i => forall vs, ii_variants i = Some vs -> NoDup vs) (ir_inputs s) /\ ge_item G = GEnum vs /\ block ex_rust (fn_block ex_fn) (ir_stmts s) /\
  map (fun x => (fst (fst x), map (fun f => (fi_name f, fi_ty f, fi_pub f)) (snd x))) vs =
    [("A", [("x", "ByteArray", false); ("y", "ByteArray", false); ("c", "bool", false)]); ("B", [("x", "ByteArray", false); ("c", "bool", false)])] /\
  map (fun x => snd (fst x)) vs = [[[99]; [100]]; []] /\ length (ge_script G) = 10%nat /\ Forall untagged (ge_script G).
Proof.
  destruct (parse_script ex_rust ex_args ex_fn) as [s| |] eqn:E; [|vm_compute in E; discriminate|vm_compute in E; discriminate]. assert (Es : ir_stmts s = ex_tree) by (vm_compute in E; injection E as <-; reflexivity).
  destruct (expand ex_rust ex_source ex_args ex_fn) as [G| |] eqn:EG; [|vm_compute in EG; discriminate|vm_compute in EG; discriminate]. vm_compute in EG. apply Ok_inj in EG. exists s, G. subst G. eexists. split; [reflexivity|]. split; [reflexivity|].
  rewrite Es. split; [vm_compute in E; injection E as <-; discriminate|]. split; [vm_compute in E; injection E as <-; cbn; repeat constructor; cbn; intuition discriminate|].
  split; [vm_compute in E; injection E as <-; repeat constructor; cbn; try discriminate; intros vs Q; injection Q as <-; repeat constructor; cbn; tauto|]. split; [reflexivity|]. split; [exact C54_body_nonvacuous|]. split; [reflexivity|]. split; [reflexivity|]. split; [reflexivity|]. repeat constructor.
Qed.
Example C55_debug_nonvacuous : exists G t, expand ex_rust ex_source debug_args ex_fn = Ok G /\ nth_error (ge_script G) 1 = Some t /\
  tagged_with t "src/f.rs" (11, 4) [(30, "let z"); (40, "let z"); (60, "let z"); (80, "let z")] [Some "z"] [] /\ t_op t = OCode OP_CAT /\
  option_map (map (fun t => (t_op t, t_src_line t, t_pushed_names t))) (input_ops G "B" (fun n => if String.eqb n "c" then OPushBool false else OPushInt 7)) = Some [(OPushInt 7, 5, Some [Some "x"]); (OPushBool false, 6, Some [Some "c"])].
Proof. eexists _, _. split; [vm_compute; reflexivity|]. split; [reflexivity|]. split; [repeat split|]. split; reflexivity. Qed.
Example C55_p2pkh_nonvacuous : exists R (a : address), expr_pushop R hash_expr = op_from_array (ad_hash a) /\ ident_ok R [99; 114; 97; 116; 101] = true /\ (forall w l, src_format ex_source w l <> None).
Proof.
  pose (a := Address P2PKH (ba_new "hash" [1; 2; 3]) [] [] None). exists (Rust rust_alnum (fun c => c =? 32) (fun _ => true) (fun _ => "") (fun _ => 1) (fun _ => op_from_array (ad_hash a))), a. repeat split. discriminate.
Qed.
(** A function for [ex_script] of Prop_Macro2.v, spent in variant B: [
    #[script(ex, A="c", B="!c")]
    fn g(p: &Params, x: ByteArray, #[variant(A)] y: ByteArray, c: bool) {
      OP_IF(c); let z = OP_CAT(x, y); OP_ELSE; let z = OP_SHA256(x); OP_ENDIF;
      OP_TOALTSTACK(z); let k = 1; let w = OP_FROMALTSTACK(z); depth_of(k); let k2 = OP_PICK; OP_EQUAL(w, k2);
    }] *)
Definition spend_rust : rust := Rust rust_alnum (fun c => c =? 32) (fun _ => true) (fun _ => "") (fun _ => 1) (fun _ => OPushInt 1).
Definition spend_args : list nested_meta := [NMeta (MPath (One "ex")); NMeta (MNameValue (One "A") (LStr [99])); NMeta (MNameValue (One "B") (LStr [33; 99]))].
Definition spend_fn : item_fn := ItemFn [] "g" false false [arg "p" "&Params"; arg "x" "ByteArray"; Typed [Attribute (One "variant") (Some (MList (One "variant") [NMeta (MPath (One "A"))]))] (PIdent "y" true) "ByteArray"; arg "c" "bool"]
  [ StSemi (op_call "OP_IF" ["c"]); let_ "z" (op_call "OP_CAT" ["x"; "y"]); StSemi (EPath (One "OP_ELSE")); let_ "z" (op_call "OP_SHA256" ["x"]); StSemi (EPath (One "OP_ENDIF"));
    StSemi (op_call "OP_TOALTSTACK" ["z"]); let_ "k" (EOther "1"); let_ "w" (op_call "OP_FROMALTSTACK" ["z"]); StSemi (op_call "depth_of" ["k"]); let_ "k2" (EPath (One "OP_PICK")); StSemi (op_call "OP_EQUAL" ["w"; "k2"]) ].
Definition spend_vals (n : string) : op := if String.eqb n "c" then OPushBool false else OPushInt 7.
Definition spend_instrs : list (list Z * instr) := [([0x57], Push [7]); ([0], Push [])].
Example C55_spend_nonvacuous : exists s G g code ops unlock lock st,
  parse_script spend_rust spend_args spend_fn = Ok s /\ expand spend_rust ex_source spend_args spend_fn = Ok G /\ NoDup (map fst (ir_variants s)) /\
  run_script (macro_of s) = Ok (g, code) /\ script_clean (macro_of s) /\ script_along coherent (macro_of s) /\ In ("B", [[Atom "c" false]]) (variants (macro_of s)) /\ satisfies (fun _ => false) [[Atom "c" false]] /\
  input_ops G "B" spend_vals = Some ops /\ Forall (fun t => push_op (t_op t)) ops /\ Forall pushes code /\ script_ser_ops ops = Ok unlock /\ script_ser_ops (ge_script G) = Ok lock /\
  executes ex_env (ba_data unlock) [] [[]; [7]] /\ executes ex_env (ba_data lock) [[]; [7]] [[]; [1]] /\ In ("B", st) (vs_states (g_vs g)) /\ map label_of (st_stack st) = [None; Some "k"] /\ ge_impl_type G = "Params" /\ ge_by_ref G = true.
Proof.
  assert (Hs : exists s, parse_script spend_rust spend_args spend_fn = Ok s /\ macro_of s = ex_script /\ map fst (ir_variants s) = ["A"; "B"]) by (eexists; split; [vm_compute; reflexivity|split; reflexivity]). destruct Hs as (s & Es & Em & En).
  assert (HG : exists G ops, expand spend_rust ex_source spend_args spend_fn = Ok G /\ input_ops G "B" spend_vals = Some ops /\ map t_op ops = [OPushInt 7; OPushBool false] /\ map t_op (ge_script G) = map OCode [OP_IF; OP_CAT; OP_ELSE; OP_SHA256; OP_ENDIF; OP_TOALTSTACK] ++ OPushInt 1 :: OCode OP_FROMALTSTACK :: OPushInt 1 :: map OCode [OP_PICK; OP_EQUAL] /\ ge_impl_type G = "Params" /\ ge_by_ref G = true)
    by (eexists _, _; split; [vm_compute; reflexivity|split; [reflexivity|repeat split]]). destruct HG as (G & ops & EG & Eo & Mo & Ms & Ei & Eb).
  destruct C53_nonvacuous as (g & code & bs & st & H1 & H2 & H3 & H4 & H5 & _ & H7 & H8 & H9 & H10 & H11).
  assert (Hu : exists u, serialize_ops [OPushInt 7; OPushBool false] = Ok u /\ ba_data u = [0x57; 0]) by (eexists; split; [vm_compute; reflexivity|reflexivity]). destruct Hu as (u & Eu & Du).
  exists s, G, g, code, ops, u, bs, st. split; [exact Es|]. split; [exact EG|]. split; [rewrite En; repeat constructor; cbn; intuition discriminate|]. rewrite Em. do 5 (split; [assumption|]). split; [exact Eo|].
  split. { assert (K : Forall push_op (map t_op ops)) by (rewrite Mo; repeat (apply Forall_cons || apply Forall_nil); split; cbn [op_ok]; try exact Logic.I; unfold Spec_Integer.script_int; change (2 ^ 31) with 2147483648; lia). clear -K. induction ops; inversion K; subst; constructor; auto. }
  split; [exact H7|]. split; [unfold script_ser_ops; rewrite Mo, Eu; reflexivity|]. split.
  { rewrite <- H8. apply ser_ops_of. rewrite Ms. unfold script_from_ops. rewrite map_map, map_id. vm_compute in H1. apply Ok_inj in H1. injection H1 as _ <-. reflexivity. }
  split; [rewrite Du; exists spend_instrs; eexists; split; [split; [reflexivity|]; unfold spend_instrs; repeat (apply Forall_cons || apply Forall_nil); cbn [fst snd]; [apply (CkSmall 7); lia|apply CkEmpty]|split; [vm_compute; discriminate|split; [vm_compute; discriminate|split; [vm_compute; reflexivity|split; reflexivity]]]]|].
  split; [exact H9|]. auto.
Qed.
Print Assumptions C55_spend_nonvacuous.
