(** Lemmas for C39: the main induction. *)
From Verif Require Import Base BaseLemmas Spec_Encoding Model_Integer Model_ByteArray Model_Opcode Model_Script Model_Behavior Model_Macro Spec_Macro Proofs_Integer Proofs_Script Proofs_Macro Proofs_Macro2 Proofs_Macro3 Proofs_Macro4 Proofs_Macro5.
Local Open Scope string_scope.
Local Open Scope list_scope.
Local Open Scope Z_scope.

(** ** Brackets *)
Lemma run_plain c o g g' code : c = OP_ELSE \/ c = OP_ENDIF -> os_ident o = opcode_name c -> run_opcode o g = Ok (g', code) ->
  g_vs g' = g_vs g /\ exists e, code = [e] /\ em_op e = EmCode c /\ em_pushed e = [] /\ em_alt_pushed e = [] /\ in_names e = [] /\ em_src e = SOpcode o.
Proof.
  intros Hc Hi E. unfold run_opcode in E. assert (Eb : opcode_by_name (os_ident o) = Some c) by (rewrite Hi; destruct Hc; subst; reflexivity). rewrite Eb in E.
  assert (E' : run_other_opcode c o g = Ok (g', code)) by (destruct Hc; subst; exact E). clear E. unfold run_other_opcode in E'.
  assert (Hb : opcode_behavior c = Ok (Behavior [] [] None [])) by (destruct Hc; subst; reflexivity). rewrite Hb in E'. cbn [obind b_input_types b_output_types b_output_order length pop_n] in E'.
  assert (Hin : match os_inputs o with Some names => Nat.eqb 0 (length names) = true | None => True end). { destruct (os_inputs o) as [[|]|]; [reflexivity|discriminate E'|exact I]. }
  assert (Hf : func_exists c = true) by (destruct Hc; subst; reflexivity).
  destruct (os_inputs o) as [[|n ns]|] eqn:Ei; [| discriminate Hin|]; cbn [length Nat.eqb check_inputs obind] in E'.
  - destruct (os_outputs o) as [[|x xs]|]; cbn [length Nat.eqb named_outputs fresh_outputs obind] in E'; try discriminate; rewrite Hf in E'; injection E' as <- <-; (split; [reflexivity|]); eexists; repeat split; unfold in_names; cbn [em_src]; now rewrite Ei.
  - destruct (os_outputs o) as [[|x xs]|]; cbn [length Nat.eqb named_outputs fresh_outputs obind] in E'; try discriminate; rewrite Hf in E'; injection E' as <- <-; (split; [reflexivity|]); eexists; repeat split; unfold in_names; cbn [em_src]; now rewrite Ei.
Qed.
Lemma run_if_code o g g' code : is_if o -> run_opcode o g = Ok (g', code) -> opcode_by_name (os_ident o) = Some OP_IF /\ run_other_opcode OP_IF o g = Ok (g', code) /\ exists e, code = [e] /\ em_op e = EmCode OP_IF /\ em_pushed e = [] /\ em_alt_pushed e = [] /\ em_src e = SOpcode o.
Proof.
  intros [Hi|Hi] E; unfold run_opcode in E; rewrite Hi in *.
  - change (opcode_by_name "OP_IF") with (Some OP_IF) in *. split; [reflexivity|]. split; [exact E|]. unfold run_other_opcode in E. cbn [opcode_behavior obind b_input_types b_output_types b_output_order] in E.
    destruct (pop_n (length [TGeneric]) g []) as [[ins g1]| |]; try discriminate. cbn [obind] in E. match type of E with obind ?x _ = _ => destruct x as [[]| |]; try discriminate end. cbn [obind] in E.
    destruct (os_outputs o) as [[|x xs]|]; cbn [length Nat.eqb named_outputs fresh_outputs obind] in E; try discriminate; injection E as <- <-; eexists; repeat split.
  - exfalso. change (opcode_by_name "OP_NOTIF") with (Some OP_NOTIF) in E. unfold run_other_opcode in E. cbn [opcode_behavior opcode_is_disabled] in E. cbn in E. destruct (os_inputs o) as [[|]|]; try discriminate; cbn in E; destruct (os_outputs o) as [[|]|]; discriminate.
Qed.
Lemma run_if_own o g g' code var k v s main alt : is_if o -> run_opcode o g = Ok (g', code) -> if_variable o = Some var -> clean (SOpcode o) -> agree o g ->
  nth_error (vs_states (g_vs g)) k = Some (v, s) -> holds_in (g_vs g) s -> Rs s main alt ->
  exists e s' r mr, code = [e] /\ em_op e = EmCode OP_IF /\ em_pushed e = [] /\ em_alt_pushed e = [] /\ main = r :: mr /\ r_label r = Some var /\ declared (in_names e) main /\
    nth_error (vs_states (g_vs g')) k = Some (v, s') /\ st_condition s' = st_condition s /\ Rs s' mr alt.
Proof.
  intros Hi E Hv (_ & _ & Cif & _) Ha Hk Hh HR. destruct (run_if_code o g g' code Hi E) as (Hn & E' & e & Hce & He & Hp & Hap & Hsrc). pose proof HR as (_ & HR2).
  assert (Ha' : forall b j, opcode_behavior OP_IF = Ok b -> (j < length (b_input_types b))%nat -> agree_at false j g). { unfold agree in Ha. rewrite Hn in Ha. exact Ha. }
  destruct (other_core _ _ _ _ _ _ _ _ _ _ E' Ha' Hk Hh HR) as (_ & _ & b & ins & pushed & used & rest & r0 & g1 & g2 & Eb & Hli & Hlu & Em & HF & HFr & Eo & Ef & Hd & Hdl & Ecode & Hk').
  injection Eb as <-. cbn [b_input_types length] in Hli. destruct ins as [|i0 [|]]; cbn in Hli; try lia. destruct used as [|r [|]]; cbn in Hlu; try lia. cbn [rev app] in Em. rewrite Hce in Ecode. injection Ecode as ->.
  assert (pushed = []) as ->. { unfold made_outputs in Eo. cbn [b_output_types b_output_order] in Eo. destruct (os_outputs o) as [[|x xs]|]; cbn in Eo; try discriminate; now injection Eo. }
  exists (Emitted (EmCode OP_IF) [] [] (SOpcode o)), (with_stack s false rest), r, r0. split; [exact Hce|]. repeat (split; [reflexivity|]). split; [exact Em|].
  assert (Hlab : r_label r = Some var).
  { unfold if_variable, in_list in *. destruct (os_inputs o) as [[|n ns]|] eqn:Ei; try discriminate. destruct n as [x|]; [|discriminate]. injection Hv as ->. specialize (Hdl ltac:(discriminate)). destruct ns; cbn in Hdl; [|lia]. cbn [length firstn] in Hd. inversion Hd as [|? ? ? ? Hx _]; subst. apply Hx; [reflexivity|].
    intros ->. apply Cif; [|reflexivity]. now apply by_name_ident in Hn. }
  split; [exact Hlab|]. split; [rewrite Em; change (r :: r0) with (rev [r] ++ r0); eapply (declared_in o); [reflexivity|exact Hd|exact Hdl]|]. split; [exact Hk'|]. split; [apply with_stack_condition|]. split; [exact HFr|exact HR2].
Qed.
(** Code of an opcode statement, whatever the tracker knows. *)
Lemma opcode_code o g g' code : run_opcode o g = Ok (g', code) -> code = [] \/ exists e, code = [e] /\ em_src e = SOpcode o /\ ((exists c, opcode_by_name (os_ident o) = Some c /\ em_op e = EmCode c) \/ exists n, em_op e = EmNumber n).
Proof.
  unfold run_opcode. intros E. destruct (opcode_by_name (os_ident o)) as [c|] eqn:Hc.
  - right. assert (exists e, code = [e] /\ em_src e = SOpcode o /\ em_op e = EmCode c) as (e & A & B & C); [|exists e; repeat split; auto; left; exists c; auto].
    assert (D : run_other_opcode c o g = Ok (g', code) \/ c = OP_TOALTSTACK \/ c = OP_FROMALTSTACK \/ c = OP_PICK \/ c = OP_ROLL) by (destruct c; auto).
    destruct D as [D|[->|[->|[->| ->]]]]; [unfold run_other_opcode in D; clear E; rename D into E| | | |];
    repeat (match type of E with
      | obind ?x _ = _ => destruct x as [?| |]; try discriminate E; cbn [obind] in E
      | (let (_, _) := ?x in _) = _ => destruct x
      | (if ?x then _ else _) = _ => destruct x; try discriminate E end); injection E as <- <-; eexists; repeat split.
  - unfold run_opcode_function in E.
    assert (HD : forall x z, run_depth_of o g x z = Ok (g', code) -> code = [] \/ exists e, code = [e] /\ em_src e = SOpcode o /\ ((exists c, None = Some c /\ em_op e = EmCode c) \/ exists n, em_op e = EmNumber n)).
    { clear E. intros x z E. right. unfold run_depth_of in E. destruct (vs_find x (g_vs g)); try discriminate. cbn [obind] in E. destruct (match os_outputs o with Some [n] => (n, g) | _ => make_ident g end) as [name g1]. destruct (integer_new _); try discriminate. cbn [obind] in E. injection E as <- <-. eexists. split; [reflexivity|]. split; [reflexivity|]. right. eexists. reflexivity. }
    destruct (String.eqb (os_ident o) "depth_of"). { destruct (os_inputs o) as [[|[ident|] [|]]|]; try discriminate E. eauto. }
    destruct (String.eqb (os_ident o) "depth_of_offset"). { destruct (os_inputs o) as [[|[ident|] [|[|t z] [|]]]|]; try discriminate E. eauto. }
    left. destruct (String.eqb (os_ident o) "transmute"); [|discriminate E]. destruct (os_inputs o) as [[|[ident|] [|? [|]]]|]; try discriminate E. destruct (os_outputs o) as [[|out [|]]|]; repeat match type of E with
      | (if ?b then _ else _) = _ => destruct b; [|discriminate E]
      | obind ?x _ = _ => destruct x; try discriminate E; cbn [obind] in E end; now injection E.
Qed.
Lemma not_bracket_control o c e : ~ is_bracket o -> opcode_by_name (os_ident o) = Some c -> em_op e = EmCode c -> ~ is_control (em_op e).
Proof.
  intros Hb Hc He Hctl. apply by_name_ident in Hc. unfold is_bracket, is_if in Hb. rewrite Hc in Hb. rewrite He in Hctl. destruct Hctl as [E|[E|E]]; injection E as ->; apply Hb; cbn; auto.
Qed.

(** ** Skipping *)
Definition skips (sigma : valuation) (code : list emitted) : Prop :=
  forall rest Q main alt ex, forallb (fun b => b) ex = false -> safe sigma rest Q (Config main alt ex) -> safe sigma (code ++ rest) Q (Config main alt ex).
Lemma skips_app sigma a b : skips sigma a -> skips sigma b -> skips sigma (a ++ b).
Proof. intros Ha Hb rest Q main alt ex Hex H. rewrite <- app_assoc. apply Ha; [exact Hex|]. now apply Hb. Qed.
Lemma skips_nil sigma : skips sigma []. Proof. intros ? ? ? ? ? ? H. exact H. Qed.
Lemma skips_one sigma e : ~ is_control (em_op e) -> skips sigma [e].
Proof. intros He rest Q main alt ex Hex H. now apply safe_skip. Qed.
Lemma stmt_skips sigma s : proper s -> forall g g' code, run_stmt s g = Ok (g', code) -> skips sigma code.
Proof.
  induction s as [e n|o|b|a b|i t e es en IHt IHe] using stmt_ind'; intros Hp g g' code E; try discriminate.
  - cbn [run_stmt] in E. unfold run_push in E. destruct n; cbn [make_ident] in E; injection E as <- <-; apply skips_one; cbn; intros [H|[H|H]]; discriminate.
  - inversion Hp as [|? Hb| | |]; subst. cbn [run_stmt] in E. destruct (opcode_code _ _ _ _ E) as [->|(x & -> & _ & [(c & Hc & Hx)|(n & Hx)])]; [apply skips_nil| |]; apply skips_one; [now apply (not_bracket_control o c)|rewrite Hx; intros [H|[H|H]]; discriminate].
  - inversion Hp as [| | | |? ? ? ? ? Hi Ht He Hn Hes Hen]; subst.
    assert (HL : forall l, Forall (fun s => proper s -> forall g g' code, run_stmt s g = Ok (g', code) -> skips sigma code) l -> Forall proper l -> forall g g' code, run_stmts l g = Ok (g', code) -> skips sigma code).
    { induction 1 as [|s l Hs _ IH]; intros Hpl g1 g1' c1 E1; [injection E1 as <- <-; apply skips_nil|]. inversion Hpl; subst. rewrite run_stmts_cons in E1. destruct (run_stmt s g1) as [[g2 c2]| |] eqn:E2; try discriminate. cbn [obind] in E1. destruct (run_stmts l g2) as [[g3 c3]| |] eqn:E3; try discriminate. cbn [obind] in E1. injection E1 as <- <-. apply skips_app; eauto. }
    rewrite run_if_eq in E. destruct (run_opcode i g) as [[g0 c0]| |] eqn:E0; try discriminate. cbn [obind] in E. destruct (if_variable i) as [var|]; [|discriminate].
    destruct (run_stmts t _) as [[g1 c1]| |] eqn:E1; try discriminate. cbn [obind] in E. destruct (match e with Some o => run_opcode o g1 | None => Ok (g1, []) end) as [[g2 c2]| |] eqn:E2; try discriminate. cbn [obind] in E.
    destruct (run_stmts es _) as [[g3 c3]| |] eqn:E3; try discriminate. cbn [obind] in E. destruct (run_opcode en g3) as [[g4 c4]| |] eqn:E4; try discriminate. cbn [obind] in E. injection E as <- <-.
    destruct (run_if_code _ _ _ _ Hi E0) as (_ & _ & x & -> & Hx & _). apply (run_plain OP_ENDIF) in E4; [|auto|exact Hen]. destruct E4 as (_ & y & -> & Hy & Py & Ay & Iy & _).
    pose proof (HL t IHt Ht _ _ _ E1) as S1. pose proof (HL es IHe Hes _ _ _ E3) as S3.
    intros rest Q main alt ex Hex H. cbn [app]. rewrite <- !app_assoc. apply safe_if_skip; [exact Hx|exact Hex|]. apply S1; [reflexivity|]. destruct e as [o|].
    + apply (run_plain OP_ELSE) in E2; [|auto|now apply He]. destruct E2 as (_ & z & -> & Hz & Pz & Az & Iz & _). cbn [app]. apply safe_else; [exact Hz|exact Pz|exact Az|exact Iz|]. apply S3; [cbn; exact Hex|]. apply safe_endif; auto.
    + injection E2 as <- <-. cbn [app]. apply S3; [reflexivity|]. apply safe_endif; auto.
Qed.
Lemma stmts_skips sigma l : Forall proper l -> forall g g' code, run_stmts l g = Ok (g', code) -> skips sigma code.
Proof.
  induction 1 as [|s l Hs _ IH]; intros g1 g1' c1 E1; [injection E1 as <- <-; apply skips_nil|]. rewrite run_stmts_cons in E1. destruct (run_stmt s g1) as [[g2 c2]| |] eqn:E2; try discriminate. cbn [obind] in E1. destruct (run_stmts l g2) as [[g3 c3]| |] eqn:E3; try discriminate. cbn [obind] in E1. injection E1 as <- <-.
  apply skips_app; [eapply stmt_skips; eassumption|eauto].
Qed.

(** ** The main induction *)
Definition tracked (sigma : valuation) (g g' : gen) (code : list emitted) : Prop :=
  forall k v s s', nth_error (vs_states (g_vs g)) k = Some (v, s) -> nth_error (vs_states (g_vs g')) k = Some (v, s') -> satisfies sigma (st_condition s) -> (forall a, In a (vs_atoms (g_vs g)) -> literal sigma a) ->
  forall main alt ex, Rs s main alt -> forallb (fun b => b) ex = true -> forall rest Q, (forall main' alt', Rs s' main' alt' -> safe sigma rest Q (Config main' alt' ex)) -> safe sigma (code ++ rest) Q (Config main alt ex).
Lemma tracked_leaf sigma st g g' code : (forall k v s main alt, nth_error (vs_states (g_vs g)) k = Some (v, s) -> holds_in (g_vs g) s -> Rs s main alt -> leaf_goal st g g' code k v s main alt) -> tracked sigma g g' code.
Proof.
  intros H k v s s' Hk Hk' Hs Hl main alt ex HR Hex rest Q HQ. assert (Hh : holds_in (g_vs g) s) by (now apply (sat_holds sigma)).
  destruct (H k v s main alt Hk Hh HR) as (_ & _ & s1 & Hk1 & _ & D). rewrite Hk' in Hk1. injection Hk1 as <-. destruct D as [(-> & ->)|(e & -> & _ & Hc & Hg & Hst)]; [now apply HQ|].
  cbn [app]. apply safe_leaf; [exact Hex|exact Hc|exact Hg|]. intros main' alt' Hstep. destruct (Hst main' alt' Hstep) as (R1 & R2 & R3). split; [split; assumption|]. now apply HQ.
Qed.
Lemma tracked_nil sigma g : tracked sigma g g [].
Proof. intros k v s s' Hk Hk' _ _ main alt ex HR Hex rest Q HQ. rewrite Hk in Hk'. injection Hk' as <-. now apply HQ. Qed.
Lemma tracked_app sigma g1 g2 g3 a b : kept g1 g2 -> tracked sigma g1 g2 a -> tracked sigma g2 g3 b -> tracked sigma g1 g3 (a ++ b).
Proof.
  intros K Ha Hb k v s s' Hk Hk' Hs Hl main alt ex HR Hex rest Q HQ. destruct (kept_nth _ _ _ _ _ K Hk) as (s2 & Hk2 & Hc2). rewrite <- app_assoc. apply (Ha k v s s2 Hk Hk2 Hs Hl main alt ex HR Hex).
  intros m2 a2 HR2. destruct K as (_ & Katoms). apply (Hb k v s2 s' Hk2 Hk'); [now rewrite Hc2|now rewrite Katoms|exact HR2|exact Hex|exact HQ].
Qed.
Lemma same_rel l l' m : Forall2 same_item l l' -> Forall (fun i => it_generated i = false -> label_of i = Some (it_name i)) l' -> Forall2 rel l m -> Forall2 rel l' m.
Proof. intros H. revert m. induction H as [|i j l l' Hij _ IH]; intros m HF HR; inversion HR; subst; inversion HF; subst; constructor; auto. eapply rel_same; eassumption. Qed.

(** Items without a made-up name keep an honest flag (an invariant of all states). *)
Definition honest (i : item) : Prop := it_generated i = false -> label_of i = Some (it_name i).
Definition honest_state (s : state) : Prop := Forall honest (st_stack s) /\ Forall honest (st_alt s).
Definition honest_gen (g : gen) : Prop := Forall (fun p => honest_state (snd p)) (vs_states (g_vs g)).
Lemma honest_the s is_alt : honest_state s -> Forall honest (the_stack s is_alt).
Proof. intros (A & B). destruct is_alt; assumption. Qed.
Lemma honest_with s is_alt l : honest_state s -> Forall honest l -> honest_state (with_stack s is_alt l).
Proof. intros (A & B) H. destruct is_alt; split; assumption. Qed.
Lemma honest_push is_alt i g : honest i -> honest_gen g -> honest_gen (g_push is_alt i g).
Proof.
  intros Hi Hg. unfold honest_gen, g_push, vs_push in *. cbn [g_vs vs_states]. apply Forall_map. eapply Forall_impl; [|exact Hg]. intros [v s] Hs. cbn [snd] in *. destruct (holds _ _); [|exact Hs]. apply honest_with; [exact Hs|]. constructor; [exact Hi|now apply honest_the].
Qed.
Lemma honest_nth g : honest_gen g <-> forall k v s, nth_error (vs_states (g_vs g)) k = Some (v, s) -> honest_state s.
Proof.
  unfold honest_gen. rewrite Forall_forall. split; [intros H k v s Hk; apply nth_error_In in Hk; exact (H _ Hk)|]. intros H [v s] Hin. apply In_nth_error in Hin. destruct Hin as (k & Hk). exact (H k v s Hk).
Qed.
Lemma honest_pop is_alt g i g' : g_pop is_alt g = Ok (i, g') -> honest_gen g -> honest i /\ honest_gen g'.
Proof.
  intros E H. rewrite honest_nth in H. destruct (pop_spec _ _ _ _ E) as (_ & _ & El & (s1 & r1 & P1 & T1) & H4). split.
  - apply possible_nth in P1. destruct P1 as (k & v & Hk & _). pose proof (honest_the s1 is_alt (H _ _ _ Hk)) as Hs. rewrite T1 in Hs. now inversion Hs.
  - apply honest_nth. intros k v s' Hk'. destruct (nth_error (vs_states (g_vs g)) k) as [[v0 s0]|] eqn:E0; [|apply nth_error_None in E0; rewrite <- El in E0; apply nth_error_None in E0; congruence].
    specialize (H4 k v0 s0 E0). pose proof (H _ _ _ E0) as Hs0. destruct (holds (st_condition s0) (vs_atoms (g_vs g))).
    + destruct H4 as (i0 & rest & Ht & Hk2 & _). rewrite Hk2 in Hk'. injection Hk' as <- <-. apply honest_with; [exact Hs0|]. pose proof (honest_the s0 is_alt Hs0) as Hs. rewrite Ht in Hs. now inversion Hs.
    + rewrite H4 in Hk'. injection Hk' as <- <-. exact Hs0.
Qed.
Lemma Forall_remove {A} (P : A -> Prop) l : Forall P l -> forall d, Forall P (remove_nth d l).
Proof. induction 1 as [|x l Hx Hl IH]; intros [|d]; cbn; auto. Qed.
Lemma honest_pick d rl vs i vs' n m : vs_pick_roll d rl vs = Ok (i, vs') -> honest_gen (Gen vs n) -> honest i /\ honest_gen (Gen vs' m).
Proof.
  intros E H. rewrite honest_nth in H. cbn [g_vs] in H. destruct (pick_spec _ _ _ _ _ E) as (_ & El & (k1 & v1 & s1 & Hk1 & _ & Hn1) & H4). split.
  - destruct (H _ _ _ Hk1) as (Hs & _). rewrite Forall_forall in Hs. apply Hs. now apply nth_error_In in Hn1.
  - apply honest_nth. cbn [g_vs]. intros k v s' Hk'. destruct (nth_error (vs_states vs) k) as [[v0 s0]|] eqn:E0; [|apply nth_error_None in E0; rewrite <- El in E0; apply nth_error_None in E0; congruence].
    specialize (H4 k v0 s0 E0). pose proof (H _ _ _ E0) as Hs0. destruct (holds (st_condition s0) (vs_atoms vs)).
    + destruct H4 as (i0 & Ht & Hk2 & _). rewrite Hk2 in Hk'. injection Hk' as <- <-. destruct rl; [|exact Hs0]. apply (honest_with s0 false); [exact Hs0|]. apply Forall_remove. apply Hs0.
    + rewrite H4 in Hk'. injection Hk' as <- <-. exact Hs0.
Qed.
Lemma honest_pop_n n : forall g acc items g', pop_n n g acc = Ok (items, g') -> honest_gen g -> Forall honest acc -> Forall honest items /\ honest_gen g'.
Proof.
  induction n as [|n IH]; intros g acc items g' E Hg Hacc; cbn [pop_n] in E; [injection E as <- <-; auto|]. destruct (g_pop false g) as [[i g1]| |] eqn:Ep; try discriminate. cbn [obind] in E. destruct (honest_pop _ _ _ _ Ep Hg) as (Hi & Hg1). eapply IH; eauto.
Qed.
Lemma honest_named n : made_up n = false -> honest (Item n false None).
Proof. intros H _. unfold label_of. cbn [it_name]. now rewrite H. Qed.
Lemma honest_generated n z : honest (Item n true z). Proof. discriminate. Qed.
Lemma honest_outputs c o b ins g1 pushed g2 : made_outputs c o b ins g1 = Ok (pushed, g2) -> (forall l x, os_outputs o = Some l -> In x l -> made_up x = false) -> Forall honest ins -> Forall honest pushed.
Proof.
  intros E Hm Hi. unfold made_outputs in E. assert (Hn : forall k i, nth_error ins k = Some i -> honest i). { intros k i Hk. rewrite Forall_forall in Hi. apply Hi. now apply nth_error_In in Hk. } destruct (os_outputs o) as [names|].
  - destruct (Nat.eqb _ _); [|discriminate]. destruct (named_spec _ _ _ _ _ _ _ _ E) as (_ & Hl & Hj). apply Forall_forall. intros x Hx. apply In_nth_error in Hx. destruct Hx as (j & Hjx). destruct (nth_error names j) as [n|] eqn:En; [|apply nth_error_None in En; rewrite <- Hl in En; apply nth_error_None in En; congruence].
    specialize (Hj j n En). destruct (String.eqb n "__").
    + destruct (opcode_retains_input c); [destruct Hj as (Hj & _); rewrite Hj in Hjx; eauto|]. destruct Hj as (ord & kk & _ & _ & Hj & _). rewrite Hj in Hjx. eauto.
    + rewrite Hj in Hjx. injection Hjx as <-. apply honest_named. apply (Hm names n eq_refl). now apply nth_error_In in En.
  - destruct (b_output_order b).
    + destruct (ordered_spec _ _ _ _ _ E) as (_ & H). clear E. induction H as [|k i ord pushed Hk _ IH]; constructor; eauto.
    + destruct (fresh_spec _ _ _ _ _ _ E) as (_ & _ & H). eapply Forall_impl; [|exact H]. intros i. destruct (opcode_retains_input c); [apply Hn|]. intros (k & ->). apply honest_generated.
Qed.
Lemma honest_pushes l : forall g, Forall honest l -> honest_gen g -> honest_gen (fold_left (fun g i => g_push false i g) l g).
Proof. induction l as [|i l IH]; intros g HF Hg; [exact Hg|]. inversion HF; subst. cbn [fold_left]. apply IH; [assumption|]. now apply honest_push. Qed.
Lemma honest_update o i i' : update_item_name o i = Ok i' -> (forall l x, os_outputs o = Some l -> In x l -> made_up x = false) -> honest i -> honest i'.
Proof.
  intros E Hm Hi. unfold update_item_name in E. destruct (os_outputs o) as [[|n [|]]|]; try discriminate; injection E as <-; [|exact Hi]. intros _. unfold label_of. cbn [it_name]. now rewrite (Hm [n] n eq_refl (or_introl eq_refl)).
Qed.
Lemma honest_depth o g x z g' code : run_depth_of o g x z = Ok (g', code) -> (os_outputs o = None \/ exists x, os_outputs o = Some [x] /\ x <> "__") -> (forall l x, os_outputs o = Some l -> In x l -> made_up x = false) -> honest_gen g -> honest_gen g'.
Proof.
  intros E Cd Hm Hg. unfold run_depth_of in E. destruct (vs_find x (g_vs g)); try discriminate. cbn [obind] in E. destruct Cd as [Eo|(y & Eo & _)]; rewrite Eo in E; cbn [make_ident] in E; destruct (integer_new _); try discriminate; cbn [obind] in E; injection E as <- <-.
  - apply honest_push; [apply honest_generated|exact Hg].
  - apply honest_push; [|exact Hg]. intros _. unfold label_of. cbn [it_name]. now rewrite (Hm [y] y Eo (or_introl eq_refl)).
Qed.
Lemma honest_opcode o g g' code : run_opcode o g = Ok (g', code) -> clean (SOpcode o) -> honest_gen g -> honest_gen g'.
Proof.
  intros E (Ci & Cm & _ & _ & _ & Cd & _) Hg. unfold run_opcode in E. destruct (opcode_by_name (os_ident o)) as [c|] eqn:Hc.
  - assert (D : run_other_opcode c o g = Ok (g', code) \/ c = OP_TOALTSTACK \/ c = OP_FROMALTSTACK \/ c = OP_PICK \/ c = OP_ROLL) by (destruct c; auto).
    destruct D as [D|D].
    + clear E. unfold run_other_opcode in D. destruct (opcode_behavior c) as [b| |]; try discriminate. cbn [obind] in D. destruct (pop_n (length (b_input_types b)) g []) as [[ins g1]| |] eqn:Ep; try discriminate. cbn [obind] in D.
      match type of D with obind ?x _ = _ => destruct x as [[]| |]; try discriminate end. cbn [obind] in D. fold (made_outputs c o b ins g1) in D. destruct (made_outputs c o b ins g1) as [[pushed g2]| |] eqn:Eo; try discriminate. cbn [obind] in D.
      destruct (func_exists c); [|discriminate]. injection D as <- <-. destruct (honest_pop_n _ _ _ _ _ Ep Hg ltac:(constructor)) as (Hins & Hg1). apply honest_pushes; [eapply honest_outputs; eassumption|]. unfold honest_gen in *. now rewrite (outputs_vs _ _ _ _ _ _ _ Eo).
    + assert (Hpr : forall c0, (do (d, g1) <- g_pop false g; do _ <- verify_item_name o d; do depth <- match it_integer d with Some k => if k <? 0 then Err (EMsg 21) else Ok (Z.to_nat k) | None => Ok O end;
        do (i, vs) <- vs_pick_roll depth (opcode_eqb c0 OP_ROLL) (g_vs g1); do i' <- update_item_name o i; Ok (g_push false i' (Gen vs (g_n g1)), [Emitted (EmCode c0) [name_tokens i'] [] (SOpcode o)])) = Ok (g', code) -> honest_gen g').
      { clear E D. intros c0 E. destruct (g_pop false g) as [[i [vs1 n1]]| |] eqn:Ep; try discriminate; cbn [obind] in E. destruct (verify_item_name o i) as [[]| |]; try discriminate; cbn [obind] in E.
        destruct (match it_integer i with Some k => if k <? 0 then Err (EMsg 21) else Ok (Z.to_nat k) | None => Ok O end) as [dd| |]; try discriminate; cbn [obind g_vs g_n] in E. destruct (vs_pick_roll dd (opcode_eqb c0 OP_ROLL) vs1) as [[j vs]| |] eqn:Eq; try discriminate; cbn [obind] in E. destruct (update_item_name o j) as [j'| |] eqn:Eu; try discriminate; cbn [obind] in E. injection E as <- <-.
        destruct (honest_pop _ _ _ _ Ep Hg) as (_ & Hg1). destruct (honest_pick _ _ _ _ _ n1 n1 Eq Hg1) as (Hj & Hg2). apply honest_push; [eapply honest_update; eassumption|exact Hg2]. }
      destruct D as [-> |[->|[->| ->]]].
      * destruct (g_pop false g) as [[i g1]| |] eqn:Ep; try discriminate; cbn [obind] in E. destruct (verify_item_name o i) as [[]| |]; try discriminate; cbn [obind] in E. destruct (update_item_name o i) eqn:Eu; try discriminate; cbn [obind] in E. injection E as <- <-. destruct (honest_pop _ _ _ _ Ep Hg) as (Hi & Hg1). apply honest_push; [eapply honest_update; eassumption|exact Hg1].
      * destruct (g_pop true g) as [[i g1]| |] eqn:Ep; try discriminate; cbn [obind] in E. destruct (verify_item_name o i) as [[]| |]; try discriminate; cbn [obind] in E. destruct (update_item_name o i) eqn:Eu; try discriminate; cbn [obind] in E. injection E as <- <-. destruct (honest_pop _ _ _ _ Ep Hg) as (Hi & Hg1). apply honest_push; [eapply honest_update; eassumption|exact Hg1].
      * exact (Hpr OP_PICK E).
      * exact (Hpr OP_ROLL E).
  - unfold run_opcode_function in E. destruct (String.eqb_spec (os_ident o) "depth_of") as [Ed|]. { destruct (os_inputs o) as [[|[ident|] [|]]|]; try discriminate E. eapply honest_depth; [exact E| |exact Cm|exact Hg]. apply Cd. rewrite Ed. now left. }
    destruct (String.eqb_spec (os_ident o) "depth_of_offset") as [Ed|]. { destruct (os_inputs o) as [[|[ident|] [|[|t z] [|]]]|]; try discriminate E. eapply honest_depth; [exact E| |exact Cm|exact Hg]. apply Cd. rewrite Ed. right. now left. }
    destruct (String.eqb (os_ident o) "transmute"); [|discriminate E]. destruct (os_inputs o) as [[|[ident|] [|? [|]]]|]; try discriminate E. destruct (os_outputs o) as [[|out [|]]|]; repeat match type of E with
      | (if ?b then _ else _) = _ => destruct b; [|discriminate E]
      | obind ?x _ = _ => destruct x; try discriminate E; cbn [obind] in E end; injection E as <- <-; exact Hg.
Qed.
Lemma honest_merge a b : forall x y, Forall (fun p : string * state => honest_state (snd p)) x -> Forall (fun p : string * state => honest_state (snd p)) y -> Forall (fun p : string * state => honest_state (snd p)) (merge_states a b x y).
Proof.
  induction x as [|[v s] x IH]; intros [|[w t] y] Hx Hy; cbn [merge_states]; try constructor; inversion Hx; inversion Hy; subst; cbn [snd] in *; [destruct (_ && _); assumption|auto].
Qed.
Lemma honest_stmt s : Forall clean (written s) -> forall g g' code, run_stmt s g = Ok (g', code) -> honest_gen g -> honest_gen g'.
Proof.
  induction s as [e n|o|b|a b|i t e es en IHt IHe] using stmt_ind'; intros Hc g g' code E Hg; try discriminate.
  - cbn [written] in Hc. inversion Hc as [|? ? Hp _]; subst. cbn [run_stmt] in E. unfold run_push in E. destruct n as [n|]; cbn [make_ident] in E; injection E as <- <-; (apply honest_push; [|exact Hg]); [|apply honest_generated]. apply honest_named. now destruct (Hp n eq_refl).
  - cbn [written] in Hc. inversion Hc; subst. eapply honest_opcode; eassumption.
  - assert (HL : forall l, Forall (fun s => Forall clean (written s) -> forall g g' code, run_stmt s g = Ok (g', code) -> honest_gen g -> honest_gen g') l -> Forall clean (concat (map written l)) -> forall g g' code, run_stmts l g = Ok (g', code) -> honest_gen g -> honest_gen g').
    { induction 1 as [|s l Hs _ IH]; intros Hcl g1 g1' c1 E1 Hg1; [injection E1 as <- <-; exact Hg1|]. cbn [map concat] in Hcl. apply Forall_app in Hcl. destruct Hcl. rewrite run_stmts_cons in E1. destruct (run_stmt s g1) as [[g2 c2]| |] eqn:E2; try discriminate. cbn [obind] in E1. destruct (run_stmts l g2) as [[g3 c3]| |] eqn:E3; try discriminate. cbn [obind] in E1. injection E1 as <- <-. eauto. }
    cbn [written] in Hc. inversion Hc as [|? ? Hci Hc1]; subst. apply Forall_app in Hc1. destruct Hc1 as (Hct & Hc2). apply Forall_app in Hc2. destruct Hc2 as (Hce & Hc3). apply Forall_app in Hc3. destruct Hc3 as (Hces & Hcen). inversion Hcen as [|? ? Hcen' _]; subst.
    rewrite run_if_eq in E. destruct (run_opcode i g) as [[g0 c0]| |] eqn:E0; try discriminate. cbn [obind] in E. destruct (if_variable i) as [var|]; [|discriminate].
    destruct (run_stmts t _) as [[g1 c1]| |] eqn:E1; try discriminate. cbn [obind] in E. destruct (match e with Some o => run_opcode o g1 | None => Ok (g1, []) end) as [[g2 c2]| |] eqn:E2; try discriminate. cbn [obind] in E.
    destruct (run_stmts es _) as [[g3 c3]| |] eqn:E3; try discriminate. cbn [obind] in E. destruct (run_opcode en g3) as [[g4 c4]| |] eqn:E4; try discriminate. cbn [obind] in E. injection E as <- <-.
    pose proof (honest_opcode _ _ _ _ E0 Hci Hg) as H0. pose proof (HL t IHt Hct _ _ _ E1 H0) as H1. pose proof (HL es IHe Hces _ _ _ E3 H0) as H3. pose proof (honest_opcode _ _ _ _ E4 Hcen' H3) as H4.
    assert (H2 : honest_gen g2). { destruct e as [o|]; [inversion Hce; subst; eapply honest_opcode; eassumption|injection E2 as <- <-; exact H1]. }
    unfold honest_gen in *. cbn [g_vs vs_states]. now apply honest_merge.
Qed.
