(** Lemmas for C57: the signatures of the mock functions, and what the opcodes do on the network. *)
From Verif Require Import Base BaseLemmas Spec_Encoding Model_ByteArray Model_Opcode Model_Script Model_Behavior Model_Macro Spec_Script Spec_Macro Proofs_Macro3
  Spec_Network Proofs_Network Proofs_Network2 Proofs_Network3 Proofs_Network4 Spec_Behavior Proofs_Behavior Spec_MacroRun Proofs_MacroRun Model_Mock Model_MacroType Spec_MacroType.
Local Open Scope list_scope.
Local Open Scope Z_scope.

(** ** Inference *)
Lemma rty_eqb_spec a b : rty_eqb a b = true <-> a = b.
Proof. destruct a, b; cbn; split; intros H; try reflexivity; discriminate H. Qed.
Definition agrees_with (sub : list (nat * rty)) (f : nat -> rty) : Prop := forall n t, assoc n sub = Some t -> f n = t.
Lemma infer_extends ps : forall ts sub sub', infer ps ts sub = Some sub' -> forall n t, assoc n sub = Some t -> assoc n sub' = Some t.
Proof.
  induction ps as [|[u|k] ps IH]; intros [|t ts] sub sub' H n v A; cbn [infer] in H; try discriminate H.
  - injection H as <-. exact A.
  - destruct (rty_eqb u t); [|discriminate H]. eapply IH; eassumption.
  - destruct (assoc k sub) as [u|] eqn:K; [destruct (rty_eqb u t); [|discriminate H]; eapply IH; eassumption|]. eapply IH; [eassumption|]. cbn [assoc]. destruct (Nat.eqb_spec k n) as [->|]; [congruence|exact A].
Qed.
Lemma infer_sound ps : forall ts sub sub' f, infer ps ts sub = Some sub' -> agrees_with sub' f -> ts = map (inst f) ps.
Proof.
  induction ps as [|[u|k] ps IH]; intros [|t ts] sub sub' f H A; cbn [infer] in H; try discriminate H; [reflexivity| |].
  - destruct (rty_eqb u t) eqn:Q; [|discriminate H]. apply rty_eqb_spec in Q. subst u. cbn [map inst]. f_equal. eapply IH; eassumption.
  - cbn [map inst]. destruct (assoc k sub) as [u|] eqn:K.
    + destruct (rty_eqb u t) eqn:Q; [|discriminate H]. apply rty_eqb_spec in Q. subst u. f_equal; [|eapply IH; eassumption]. symmetry. apply A. eapply infer_extends; eassumption.
    + f_equal; [|eapply IH; eassumption]. symmetry. apply A. eapply infer_extends; [eassumption|]. cbn [assoc]. now rewrite Nat.eqb_refl.
Qed.
Lemma instantiate_sound rs sub f : agrees_with sub f -> forall l, instantiate rs sub = Some l -> l = map (inst f) rs.
Proof.
  intros A. induction rs as [|[t|n] rs IH]; intros l H; cbn [instantiate] in H; [now injection H as <-| |].
  - destruct (instantiate rs sub); [|discriminate H]. injection H as <-. cbn. f_equal. now apply IH.
  - destruct (assoc n sub) as [t|] eqn:N; [|discriminate H]. destruct (instantiate rs sub); [|discriminate H]. injection H as <-. cbn. f_equal; [symmetry; now apply A|now apply IH].
Qed.
Lemma infer_complete ps : forall f sub, agrees_with sub f -> exists sub', infer ps (map (inst f) ps) sub = Some sub' /\ agrees_with sub' f /\
  (forall n, assoc n sub <> None \/ In (PVar n) ps -> assoc n sub' <> None).
Proof.
  induction ps as [|[u|k] ps IH]; intros f sub A; cbn [map inst infer].
  - exists sub. split; [reflexivity|]. split; [exact A|]. intros n [H|[]]. exact H.
  - assert (Q : rty_eqb u u = true) by now destruct u. rewrite Q. destruct (IH f sub A) as (sub' & I & B & C). exists sub'. split; [exact I|]. split; [exact B|]. intros n [H|[H|H]]; [auto|discriminate H|auto].
  - destruct (assoc k sub) as [u|] eqn:K.
    + rewrite (A _ _ K). assert (Q : rty_eqb u u = true) by now destruct u. rewrite Q. destruct (IH f sub A) as (sub' & I & B & C). exists sub'. split; [exact I|]. split; [exact B|]. intros n [H|[H|H]]; [auto| |auto]. injection H as <-. apply C. left. congruence.
    + assert (A' : agrees_with ((k, f k) :: sub) f). { intros n t. cbn [assoc]. destruct (Nat.eqb_spec k n) as [->|]; [intros H; now injection H|apply A]. }
      destruct (IH f _ A') as (sub' & I & B & C). exists sub'. split; [exact I|]. split; [exact B|]. intros n [H|[H|H]]; [|injection H as <-|auto]; apply C; left; cbn [assoc]; [destruct (Nat.eqb k n); [discriminate|exact H]|rewrite Nat.eqb_refl; discriminate].
Qed.
Lemma instantiate_complete rs sub f : agrees_with sub f -> (forall n, In (PVar n) rs -> assoc n sub <> None) -> instantiate rs sub = Some (map (inst f) rs).
Proof.
  intros A. induction rs as [|[t|n] rs IH]; intros H; cbn [instantiate map inst]; [reflexivity| |].
  - rewrite IH; [reflexivity|]. intros n I. apply H. now right.
  - destruct (assoc n sub) as [t|] eqn:N; [|exfalso; apply (H n); [now left|exact N]]. rewrite IH; [now rewrite (A _ _ N)|]. intros k I. apply H. now right.
Qed.
Lemma mock_vars c ps rs : mock c = Some (ps, rs) -> forall n, In (PVar n) rs -> In (PVar n) ps.
Proof. intros H. destruct c; try discriminate H; injection H as <- <-; cbn; intros n K; intuition congruence. Qed.
Lemma apply_mock_iff c ts rs : apply_mock c ts = Some rs <-> signature c ts rs.
Proof.
  unfold apply_mock, signature. split.
  - destruct (mock c) as [[ps qs]|]; [|discriminate]. destruct (infer ps ts []) as [sub|] eqn:I; [|discriminate]. intros H. set (f := fun n => match assoc n sub with Some t => t | None => RInt end).
    assert (A : agrees_with sub f) by (intros n t K; unfold f; now rewrite K). exists ps, qs, f. split; [reflexivity|]. split; [eapply infer_sound; eassumption|eapply instantiate_sound; eassumption].
  - intros (ps & qs & f & M & -> & ->). rewrite M. destruct (infer_complete ps f [] ltac:(intros n t H; discriminate H)) as (sub & -> & A & C). apply instantiate_complete; [exact A|]. intros n I. apply C. right. eapply mock_vars; eassumption.
Qed.
Lemma lookup_all_spec G l : forall ts, lookup_all G l = Some ts <-> Forall2 (fun x t => lookup G x = Some t) l ts.
Proof.
  induction l as [|x l IH]; intros ts; cbn [lookup_all]; [split; [intros H; injection H as <-; constructor|intros H; now inversion H]|]. split.
  - destruct (lookup G x) as [t|] eqn:L; [|discriminate]. destruct (lookup_all G l) as [r|]; [|discriminate]. intros H. injection H as <-. constructor; [exact L|]. now apply IH.
  - intros H. inversion H as [|? t ? r L F]; subst. rewrite L. apply IH in F. now rewrite F.
Qed.

(** ** The table of behaviours and the mock functions *)
Lemma func_mock c : func_exists c = true <-> mock c <> None.
Proof. destruct c; split; intros H; try reflexivity; try discriminate; exfalso; now apply H. Qed.
(** What the behaviour table calls a type, as a parameter of a function. *)
Definition type_fits (t : data_type) (p : pty) : Prop :=
  match t, p with
  | TGeneric, _ | TInteger, PT RInt | TBoolean, PT RBool | TByteArray _, PT RBytes => True
  | TBoolean, PVar _ => True
  | _, _ => False
  end.
Definition tracked_apart (c : opcode) : bool := match c with OP_TOALTSTACK | OP_FROMALTSTACK | OP_PICK | OP_ROLL => true | _ => false end.
Lemma mock_table c ps rs b : mock c = Some (ps, rs) -> opcode_behavior c = Ok b -> tracked_apart c = false ->
  length ps = length (b_input_types b) /\ length rs = length (b_output_types b) /\
  (c <> OP_DEPTH -> forall o, b_output_order b = Some o -> map Some rs = map (nth_error ps) o) /\
  (opcode_retains_input c = true -> nth_error rs 0 = nth_error ps 0).
Proof.
  intros M B T. destruct c; try discriminate M; try discriminate T; injection M as <- <-; cbn [opcode_behavior opcode_is_disabled] in B; apply Ok_inj in B; subst b; cbn [b_input_types b_output_types b_output_order length];
    (split; [reflexivity|]); (split; [reflexivity|]); (split; [intros N o O; first [discriminate O | congruence | injection O as <-; reflexivity]|]); intros R; first [discriminate R | reflexivity].
Qed.

(** ** On the network *)
Lemma has_bool b : has RBool (bool_item b).
Proof. destruct b; cbn; auto. Qed.
Lemma has_check b g v : check b g = Some v -> has RBool v.
Proof. unfold check. destruct b; [|destruct g]; intros H; inversion H; subst; cbn; auto. Qed.
Lemma has_enc z : has RInt (enc z).
Proof. cbn. now destruct (enc_correct z) as (_ & B & _). Qed.
Definition ordered (c : opcode) (ins outs : list (list Z)) : Prop :=
  (c <> OP_DEPTH -> forall b o, opcode_behavior c = Ok b -> b_output_order b = Some o -> map Some outs = map (nth_error ins) o) /\
  (opcode_retains_input c = true -> nth_error outs 0 = nth_error ins 0).
Definition result (c : opcode) (rs : list rty) (ins rest s' : list (list Z)) : Prop := exists outs, s' = rev outs ++ rest /\ Forall2 has rs outs /\ ordered c ins outs.
Ltac order_tac := split; [intros N b o B O; cbn [opcode_behavior opcode_is_disabled] in B; apply Ok_inj in B; subst b; cbn [b_output_order] in O; first [discriminate O | congruence | injection O as <-; reflexivity]|intros R; first [discriminate R | reflexivity]].
Ltac give l := exists l; split; [reflexivity|]; split; [repeat (constructor; [first [assumption | exact I | apply has_bool | apply has_enc]|]); constructor|order_tac].
Ltac opr c := match goal with |- result c _ _ _ _ => idtac end.
Lemma mock_effect E c code ts rs ins rest s' : signature c ts rs -> on_top c = true -> c <> OP_PICK -> Forall2 has ts ins ->
  main_op E code (opcode_u8 c) (rev ins ++ rest) = Some s' -> result c rs ins rest s'.
Proof.
  intros (ps & qs & f & M & -> & ->) OT NP TI HM. destruct c; try discriminate OT; try discriminate M; try contradiction; injection M as <- <-; cbn [map inst] in *; fwd_inv; cbn [rev app] in HM; try discriminate HM.
  (* moves, no effect *)
  all: try (apply Some_inj in HM; subst s'; match goal with |- result _ [] _ _ _ => give (@nil (list Z)) end; fail).
  all: try (apply Some_inj in HM; subst s'; match goal with |- result ?c _ ?l _ _ => match eval cbv in (opcode_behavior c) with Ok (Behavior _ _ (Some ?o) _) => match o with [] => fail 1 | _ => give (map (fun k => nth k l []) o) end end end; fail).
  all: try (first [apply verify_inv in HM | apply verify_omap in HM]; subst s'; give (@nil (list Z)); fail).
  (* arithmetic and comparisons *)
  all: try (apply unary_inv in HM; destruct HM as (nx & nv & _ & F & ->); injection F as <-; match goal with |- result _ _ _ _ (?v :: _) => give [v] end; fail).
  all: try (apply binary_inv in HM; destruct HM as (nx & ny & nv & _ & _ & F & ->); try (injection F as <-); match goal with |- result _ _ _ _ (?v :: _) => give [v] end; fail).
  all: try (first [opr OP_DIV | opr OP_MOD]; apply binary_inv in HM; destruct HM as (nx & ny & nv & _ & _ & F & ->); destruct (ny =? 0); [discriminate F|]; injection F as <-; match goal with |- result _ _ _ _ (?v :: _) => give [v] end; fail).
  all: try (first [opr OP_CHECKSIG | opr OP_CHECKDATASIG]; cbn [main_op opcode_u8] in HM; destruct (check _ _) as [v|] eqn:K in HM; [|discriminate HM]; apply has_check in K; injection HM as <-; give [v]; fail).
  all: try (first [opr OP_CHECKLOCKTIMEVERIFY | opr OP_CHECKSEQUENCEVERIFY]; cbn [main_op opcode_u8] in HM; match type of HM with (if ?q then _ else _) = _ => destruct q; [|discriminate HM] end; injection HM as <-; match goal with |- result _ _ _ _ (?v :: _) => give [v] end; fail).
  all: try (first [opr OP_AND | opr OP_OR | opr OP_XOR]; cbn [main_op opcode_u8] in HM; unfold bitwise in HM; match type of HM with (if ?q then _ else _) = _ => destruct q; [|discriminate HM] end; apply Some_inj in HM; subst s'; match goal with |- result _ _ _ _ (?v :: _) => give [v] end; fail).
  all: try (apply Some_inj in HM; subst s'; match goal with |- result _ _ _ ?r (?v :: ?r) => give [v] end; fail).
  - (* CAT *) cbn [main_op opcode_u8] in HM. destruct (_ <=? MAX_ELEMENT) in HM; [|discriminate HM]. apply Some_inj in HM. subst s'. match goal with |- result _ _ _ _ (?v :: _) => give [v] end.
  - (* SPLIT *) cbn [main_op opcode_u8] in HM. destruct (num y0) as [k|]; [|discriminate HM]. destruct ((0 <=? k) && (k <=? zlen y)); [|discriminate HM]. apply Some_inj in HM. subst s'. give [firstn (Z.to_nat k) y; skipn (Z.to_nat k) y].
  - (* NUM2BIN *) cbn [main_op opcode_u8] in HM. destruct (num y0) as [k|]; [|discriminate HM]. cbv zeta in HM. destruct ((0 <=? k) && (k <=? MAX_ELEMENT) && _) in HM; [|discriminate HM]. apply Some_inj in HM. subst s'. match goal with |- result _ _ _ _ (?v :: _) => give [v] end.
  - (* BIN2NUM *) cbn [main_op opcode_u8] in HM. cbv zeta in HM. destruct (zlen (enc (script_num y)) <=? 4); [|discriminate HM]. apply Some_inj in HM. subst s'. give [enc (script_num y)].
  - (* SIZE *) apply Some_inj in HM. subst s'. give [y; enc (zlen y)].
  - (* NUMEQUALVERIFY *) cbn [main_op opcode_u8] in HM. unfold test2 in HM. destruct (binary _ _) eqn:B in HM; [|discriminate HM]. apply binary_inv in B. destruct B as (nx & ny & nv & _ & _ & _ & ->).
    apply verify_inv in HM. subst s'. give (@nil (list Z)).
  - (* WITHIN *) cbn [main_op opcode_u8] in HM. destruct (num y); [|discriminate HM]. destruct (num y0); [|discriminate HM]. destruct (num y1); [|discriminate HM]. apply Some_inj in HM. subst s'. match goal with |- result _ _ _ _ (?v :: _) => give [v] end.
Qed.
