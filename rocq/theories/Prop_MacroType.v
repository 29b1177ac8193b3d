(** C57: what it means for a script that rustc accepts the code the script macro generates for it. *)
From Verif Require Import Base BaseLemmas Spec_Encoding Model_Encoding Model_ByteArray Proofs_ByteArray Model_Opcode Model_Script Model_Code Model_Behavior Model_Macro Spec_Script Proofs_Script Spec_Macro Spec_Network Proofs_Network2 Proofs_Network3
  Spec_MacroRun Proofs_MacroRun Spec_Behavior Proofs_Behavior Model_Mock Model_MacroType Spec_MacroType Proofs_MacroType Proofs_MacroType2 Proofs_MacroType7 Proofs_MacroType8 Prop_OffChain Prop_Macro2 Prop_MacroRun.
Local Open Scope string_scope.
Local Open Scope list_scope.
Local Open Scope Z_scope.

(** The types do not change what is generated: the same ops, the same stacks, the same errors as for the script without types. *)
Theorem C57_same_code : forall type_of m tys,
  match trun_script type_of m tys, run_script m with
  | Ok (tg, tcode, _), Ok (g, code) =>
    tcode = code /\ tg_n tg = g_n g /\ tv_atoms (tg_vs tg) = vs_atoms (g_vs g) /\
    Forall2 (fun ts s => fst ts = fst s /\ ts_condition (snd ts) = st_condition (snd s) /\ map t_item (ts_stack (snd ts)) = st_stack (snd s) /\ map t_item (ts_alt (snd ts)) = st_alt (snd s)) (tv_states (tg_vs tg)) (vs_states (g_vs g))
  | Err e, Err e' => e = e'
  | Panic, Panic => True
  | _, _ => False
  end.
Proof.
  intros type_of m tys. rewrite <- (escript type_of m tys). destruct (trun_script type_of m tys) as [[[g c] l]|e|]; cbn [emap eres fst snd]; [|reflexivity|exact Logic.I].
  split; [reflexivity|]. split; [reflexivity|]. split; [reflexivity|]. cbn [egen evs g_vs vs_states]. unfold estates. induction (tv_states (tg_vs g)) as [|[v s] r IH]; cbn [map]; constructor; [repeat split|exact IH].
Qed.
Print Assumptions C57_same_code.

(** rustc accepts a generated call exactly if the variables are in scope and have types the function can be called with; the results get the result types. *)
Theorem C57_call : forall G outs c args,
  (exists G', check_line G (LCall outs c args) = Some G') <->
  exists ts rs, Forall2 (fun x t => lookup G x = Some t) args ts /\ signature c ts rs /\ length outs = length rs.
Proof.
  intros G outs c args. cbn [check_line]. split.
  - intros (G' & H). destruct (lookup_all G args) as [ts|] eqn:L; [|discriminate]. destruct (apply_mock c ts) as [rs|] eqn:A; [|discriminate]. exists ts, rs. split; [now apply lookup_all_spec|]. split; [now apply apply_mock_iff|].
    clear L A. revert rs G H. induction outs as [|x outs IH]; intros [|r rs] G H; cbn in *; try discriminate; [reflexivity|]. f_equal. eapply IH; eassumption.
  - intros (ts & rs & F & S & L). apply lookup_all_spec in F. rewrite F. apply apply_mock_iff in S. rewrite S. clear F S. revert rs G L. induction outs as [|x outs IH]; intros [|r rs] G L; cbn in *; try discriminate; [eauto|]. apply IH. lia.
Qed.
Print Assumptions C57_call.

(** The functions exist for the opcodes the macro accepts, with as many parameters and results as the table of opcode behaviours says, and with
    the permutation of the table. *)
Theorem C57_table : forall c,
  (func_exists c = true <-> exists ps rs, mock c = Some (ps, rs)) /\
  forall ps rs b, mock c = Some (ps, rs) -> opcode_behavior c = Ok b -> ~ In c [OP_TOALTSTACK; OP_FROMALTSTACK; OP_PICK; OP_ROLL] ->
    length ps = length (b_input_types b) /\ length rs = length (b_output_types b) /\
    (c <> OP_DEPTH -> forall o, b_output_order b = Some o -> map Some rs = map (nth_error ps) o) /\
    (opcode_retains_input c = true -> nth_error rs 0 = nth_error ps 0).
Proof.
  intros c. split.
  - rewrite func_mock. destruct (mock c) as [[ps rs]|]; split; [eauto|discriminate|intros H; now elim H|intros (ps & rs & H); discriminate].
  - intros ps rs b M B N. apply (mock_table c ps rs b M B). destruct c; try reflexivity; exfalso; apply N; cbn; auto.
Qed.
Print Assumptions C57_table.

(** The functions tell the truth about the opcodes: executed on operands of the parameter types, an opcode that succeeds leaves results of the result
    types, in their place, and nothing else changes. *)
Theorem C57_opcode : forall E c bs after ts rs ins rest a x co m',
  signature c ts rs -> on_top c = true -> c <> OP_PICK -> Forall2 has ts ins -> running x ->
  Spec_Network.step E bs (Exec (opcode_u8 c)) after (Machine (rev ins ++ rest) a x co) = Some m' ->
  exists outs, m_main m' = rev outs ++ rest /\ m_alt m' = a /\ m_exec m' = x /\ Forall2 has rs outs.
Proof.
  intros E c bs after ts rs ins rest a x co m' S T NP F R H.
  assert (K : exists s', main_op E co (opcode_u8 c) (rev ins ++ rest) = Some s' /\ m_main m' = s' /\ m_alt m' = a /\ m_exec m' = x).
  { assert (A : Spec_Network.active (Machine (rev ins ++ rest) a x co) = true) by (unfold Spec_Network.active; apply forallb_forall; intros b I; unfold running in R; rewrite Forall_forall in R; now apply R). destruct (mock c) as [[ps qs]|] eqn:M; [|destruct S as (? & ? & ? & M' & _); congruence].
    unfold Spec_Network.step in H. destruct c; try discriminate T; try discriminate M; cbn [opcode_u8] in *; rewrite A in H; cbn [negb never] in H;
    try (match type of H with (if ?q then _ else _) = _ => change q with false in H end); cbv iota in H;
    first [ match type of H with option_map _ ?q = _ => destruct q as [s'|] eqn:Q; [|discriminate H]; injection H as <-; exists s'; repeat split; exact Q end
          | injection H as <-; eexists; repeat split ]. }
  destruct K as (s' & HM & E1 & E2 & E3). destruct (mock_effect E c co ts rs ins rest s' S T NP F HM) as (outs & -> & Fo & _). exists outs. auto.
Qed.
Print Assumptions C57_opcode.

(** Types are right on the network: take a script the macro and rustc accept (under the conditions of Spec_MacroType), items of the declared types of the
    inputs of a variant, and a point of an execution on them.  The op executed next finds operands of the types of its function's parameters; at the
    end, the items on the stacks have the types of their variables.  The exception is an execution in which a conditional found another truth value than
    the variant implies. *)
Theorem C57_sound : forall E type_of m tys g code lines G sigma v p values bs,
  trun_script type_of m tys = Ok (g, code, lines) -> length tys = length (ms_inputs m) -> check_lines [] lines = Some G -> never_lowers [] lines ->
  Forall proper (ms_stmts m) -> variants_ok m -> script_talong type_of m tys -> In (v, p) (variants m) -> satisfies sigma p -> Forall2 has (variant_types m tys v) values ->
  Forall pushes code -> script_ser_ops (script_from_ops (map op_of code)) = Ok bs ->
  exists l s, decodes (ba_data bs) l /\ codes code l /\ In (v, s) (tv_states (tg_vs g)) /\
  let start := (l, Machine (rev values) [] [] (ba_data bs)) in
  forall l' m', visits E start (l', m') ->
  strayed E sigma code start (l', m') \/
  exists before rest, code = before ++ rest /\ codes rest l' /\
    match rest with
    | e :: _ => Spec_Network.active m' = true -> operands_typed e m'
    | [] => Forall2 (item_typed G) (ts_stack s) (m_main m') /\ Forall2 (item_typed G) (ts_alt s) (m_alt m') /\ m_exec m' = []
    end.
Proof.
  intros E type_of m tys g code lines G sigma v p values bs R L C N Hp Hv Ha Hin Hs HT P S.
  assert (RC : Forall real_code code). { apply (script_real m (egen g)). rewrite <- (escript type_of m tys), R. reflexivity. }
  unfold script_ser_ops in S. rewrite ops_of_from in S. destruct (serialize_ops (map op_of code)) as [a| |] eqn:S'; try discriminate S. apply Ok_inj in S. subst a. destruct (script_codes _ _ RC P S') as (l & D & Cl & _).
  destruct (script_typed E type_of m tys g code lines G sigma v p values (ba_data bs) R L C N Hp Hv Ha Hin Hs HT) as (s & Hs' & T). exists l, s. split; [exact D|]. split; [exact Cl|]. split; [exact Hs'|]. cbv zeta. intros l' m' V.
  destruct (tsafe_visits E sigma _ _ _ V code T P Cl) as [St|(before & rest & Q1 & Q2 & Q3)]; [left; exact St|right]. exists before, rest. split; [exact Q1|]. split; [exact Q2|]. cbn [snd] in Q3. destruct rest as [|e rest]; [exact Q3|]. exact (proj1 Q3).
Qed.
Print Assumptions C57_sound.

(** A completed execution leaves items of the types the macro's variables have. *)
Theorem C57_final_stack : forall E type_of m tys g code lines G sigma v p values bs final,
  trun_script type_of m tys = Ok (g, code, lines) -> length tys = length (ms_inputs m) -> check_lines [] lines = Some G -> never_lowers [] lines ->
  Forall proper (ms_stmts m) -> variants_ok m -> script_talong type_of m tys -> In (v, p) (variants m) -> satisfies sigma p -> Forall2 has (variant_types m tys v) values ->
  Forall pushes code -> script_ser_ops (script_from_ops (map op_of code)) = Ok bs -> executes E (ba_data bs) (rev values) final ->
  exists l s m', In (v, s) (tv_states (tg_vs g)) /\ decodes (ba_data bs) l /\
  (Forall2 (item_typed G) (ts_stack s) final \/ strayed E sigma code (l, Machine (rev values) [] [] (ba_data bs)) ([], m')).
Proof.
  intros E type_of m tys g code lines G sigma v p values bs final R L C N Hp Hv Ha Hin Hs HT P S X.
  destruct (C57_sound E type_of m tys g code lines G sigma v p values bs R L C N Hp Hv Ha Hin Hs HT P S) as (l & s & D & Cl & Hs' & F). cbv zeta in F.
  assert (B : bytes_ok (ba_data bs)).
  { unfold script_ser_ops in S. rewrite ops_of_from in S. destruct (serialize_ops (map op_of code)) as [a| |] eqn:S'; try discriminate S. apply Ok_inj in S. subst a. assert (RC : Forall real_code code). { apply (script_real m (egen g)). rewrite <- (escript type_of m tys), R. reflexivity. }
    destruct (script_codes _ _ RC P S') as (_ & _ & _ & B). exact B. }
  apply (executes_iff _ _ _ _ _ B D) in X. destruct X as (_ & _ & mm & St & _ & M). apply steps_visits in St. exists l, s, mm. split; [exact Hs'|]. split; [exact D|].
  destruct (F _ _ St) as [A|(before & rest & -> & Cr & K)]; [right; exact A|left]. inversion Cr; subst rest. destruct K as (K & _). now rewrite <- M.
Qed.
Print Assumptions C57_final_stack.

(** Without conditionals nothing can stray: the operands are typed at every point and the final items too. *)
Theorem C57_straight : forall E type_of m tys g code lines G v p values bs,
  trun_script type_of m tys = Ok (g, code, lines) -> length tys = length (ms_inputs m) -> check_lines [] lines = Some G -> never_lowers [] lines ->
  Forall proper (ms_stmts m) -> variants_ok m -> script_talong type_of m tys -> In (v, p) (variants m) -> (exists sigma, satisfies sigma p) -> Forall2 has (variant_types m tys v) values ->
  Forall pushes code -> script_ser_ops (script_from_ops (map op_of code)) = Ok bs -> Forall (fun e => em_op e <> EmCode OP_IF) code ->
  (exists l, decodes (ba_data bs) l /\
   forall l' m', visits E (l, Machine (rev values) [] [] (ba_data bs)) (l', m') -> exists before rest, code = before ++ rest /\ codes rest l' /\ forall e r, rest = e :: r -> Spec_Network.active m' = true -> operands_typed e m') /\
  exists s, In (v, s) (tv_states (tg_vs g)) /\ forall final, executes E (ba_data bs) (rev values) final -> Forall2 (item_typed G) (ts_stack s) final.
Proof.
  intros E type_of m tys g code lines G v p values bs R L C N Hp Hv Ha Hin (sigma & Hs) HT P S NI.
  assert (NS : forall x y, ~ strayed E sigma code x y). { intros x y (before & e & rest & z & -> & _ & _ & _ & (Q & _)). apply Forall_app in NI. destruct NI as (_ & NI). inversion NI. contradiction. }
  destruct (C57_sound E type_of m tys g code lines G sigma v p values bs R L C N Hp Hv Ha Hin Hs HT P S) as (l & s & D & Cl & Hs' & F). cbv zeta in F. split.
  - exists l. split; [exact D|]. intros l' m' V. destruct (F _ _ V) as [A|(before & rest & Q1 & Q2 & Q3)]; [elim (NS _ _ A)|]. exists before, rest. split; [exact Q1|]. split; [exact Q2|]. intros e r ->. exact Q3.
  - exists s. split; [exact Hs'|]. intros final X. 
    assert (B : bytes_ok (ba_data bs)).
    { unfold script_ser_ops in S. rewrite ops_of_from in S. destruct (serialize_ops (map op_of code)) as [a| |] eqn:S'; try discriminate S. apply Ok_inj in S. subst a. assert (RC : Forall real_code code). { apply (script_real m (egen g)). rewrite <- (escript type_of m tys), R. reflexivity. }
      destruct (script_codes _ _ RC P S') as (_ & _ & _ & B). exact B. }
    apply (executes_iff _ _ _ _ _ B D) in X. destruct X as (_ & _ & mm & St & _ & M). apply steps_visits in St. destruct (F _ _ St) as [A|(before & rest & -> & Cr & K)]; [elim (NS _ _ A)|]. inversion Cr; subst rest. destruct K as (K & _). now rewrite <- M.
Qed.
Print Assumptions C57_straight.

(** What [to_pushop] makes of a Rust value is, on the network, an item of the type of its [to_data]. *)
Theorem C57_pushed_value : forall o t d, push_type o = Some t -> pushes_data o d -> has t d.
Proof. intros o t d T M. unfold pushes_data in M. destruct o; try discriminate T; injection T as <-; inversion M; subst; cbn [has]; auto. Qed.
Print Assumptions C57_pushed_value.

(** The wallet pushes values of the declared types, the network executes the input script and then the generated script: the final items have the types of their variables. *)
Theorem C57_end_to_end : forall E type_of m tys g code lines G sigma v p (values : list (string * op)) unlock lock stack final,
  trun_script type_of m tys = Ok (g, code, lines) -> length tys = length (ms_inputs m) -> check_lines [] lines = Some G -> never_lowers [] lines ->
  Forall proper (ms_stmts m) -> variants_ok m -> script_talong type_of m tys -> In (v, p) (variants m) -> satisfies sigma p ->
  map fst values = variant_pushes m v -> map (fun x => push_type (snd x)) values = map Some (variant_types m tys v) -> Forall push_op (map snd values) -> script_ser_ops (script_from_ops (map snd values)) = Ok unlock ->
  Forall pushes code -> script_ser_ops (script_from_ops (map op_of code)) = Ok lock ->
  executes E (ba_data unlock) [] stack -> executes E (ba_data lock) stack final ->
  Forall2 has (variant_types m tys v) (rev stack) /\
  exists l s m', In (v, s) (tv_states (tg_vs g)) /\ decodes (ba_data lock) l /\
  (Forall2 (item_typed G) (ts_stack s) final \/ strayed E sigma code (l, Machine stack [] [] (ba_data lock)) ([], m')).
Proof.
  intros E type_of m tys g code lines G sigma v p values unlock lock stack final R L C N Hp Hv Ha Hin Hs Nm Ty PV SU P SL XU XL.
  destruct (C53_inputs E m v values unlock stack Nm PV SU XU) as (_ & main & V & _ & F).
  assert (HT : Forall2 has (variant_types m tys v) (rev stack)).
  { rewrite <- V, <- map_rev. clear -F Ty. revert F Ty. generalize (rev main) (variant_types m tys v). intros r ts F. revert ts. induction F as [|x i values r (_ & Q) _ IH]; intros [|t ts] Ty; try discriminate Ty; cbn [map]; constructor.
    - injection Ty as T _. exact (C57_pushed_value _ _ _ T Q).
    - injection Ty as _ T. now apply IH. }
  split; [exact HT|]. rewrite <- (rev_involutive stack) in XL |- *. exact (C57_final_stack E type_of m tys g code lines G sigma v p (rev stack) lock final R L C N Hp Hv Ha Hin Hs HT P SL XL).
Qed.
Print Assumptions C57_end_to_end.

(** The condition on variables holds whenever no variable is bound twice. *)
Lemma lookup_bind outs : forall rs G G' x, bind_all outs rs G = Some G' -> ~ In x outs -> lookup G' x = lookup G x.
Proof.
  induction outs as [|y outs IH]; intros [|r rs] G G' x H N; try discriminate H; cbn in H; [now injection H as <-|]. rewrite (IH _ _ _ _ H); [|intros I; apply N; now right]. cbn. destruct (String.eqb_spec x y) as [->|]; [|reflexivity]. exfalso. apply N. now left.
Qed.
Lemma lookup_line G l G' x : check_line G l = Some G' -> ~ In x (bound l) -> lookup G' x = lookup G x.
Proof.
  destruct l as [y [t|]|outs c args|c arg]; cbn [check_line bound]; intros H N; try discriminate.
  - injection H as <-. cbn. destruct (String.eqb_spec x y) as [->|]; [|reflexivity]. exfalso. apply N. now left.
  - destruct (lookup_all G args); [|discriminate]. destruct (apply_mock c l); [|discriminate]. eapply lookup_bind; eassumption.
  - destruct (lookup G arg); [|discriminate]. destruct (apply_mock c [r]); [|discriminate]. now injection H as <-.
Qed.
Theorem C57_bound_once : forall lines, NoDup (flat_map bound lines) -> never_lowers [] lines.
Proof.
  intros lines Nd. assert (K : forall x, In x (flat_map bound lines) -> lookup [] x = None) by reflexivity. revert Nd K. generalize (@nil (string * rty)). induction lines as [|l lines IH]; intros G Nd K; cbn [never_lowers]; [exact Logic.I|]. intros G' H. cbn [flat_map] in Nd, K. split.
  - intros x t Hx. exists t. split; [|intros v Hv; exact Hv]. rewrite (lookup_line _ _ _ x H); [exact Hx|]. intros I. rewrite (K x) in Hx; [discriminate|apply in_or_app; now left].
  - apply IH; [clear -Nd; induction (bound l) as [|y r IHr]; [exact Nd|]; cbn in Nd; inversion Nd; subst; now apply IHr|]. intros x I. rewrite (lookup_line _ _ _ x H); [apply K; apply in_or_app; now right|]. intros J. clear -Nd I J. induction (bound l) as [|y r IHr]; [destruct J|]. cbn in Nd. inversion Nd; subst. destruct J as [->|J]; [apply H1, in_or_app; now right|now apply IHr].
Qed.
Print Assumptions C57_bound_once.
