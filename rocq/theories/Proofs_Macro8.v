(** Lemmas for C39: when the variants agree; which ops are generated. *)
From Verif Require Import Base BaseLemmas Spec_Encoding Model_Integer Model_ByteArray Model_Opcode Model_Script Model_Behavior Model_Macro Spec_Macro Proofs_Integer Proofs_Script Proofs_Macro Proofs_Macro2 Proofs_Macro3 Proofs_Macro4 Proofs_Macro5 Proofs_Macro6 Proofs_Macro7.
Local Open Scope string_scope.
Local Open Scope list_scope.
Local Open Scope Z_scope.

(** ** Improving the property held along a script *)
Lemma along_improve (I : gen -> Prop) (P Q : opcode_stmt -> gen -> Prop) (S : stmt -> Prop) :
  (forall a g, I g -> I (with_atom a g)) -> (forall vs n m, I (Gen vs n) -> I (Gen vs m)) ->
  (forall s g g' code, run_stmt s g = Ok (g', code) -> Forall S (written s) -> I g -> I g') ->
  (forall o g, P o g -> S (SOpcode o) -> I g -> (exists r, run_opcode o g = Ok r) -> Q o g) ->
  forall s g, along P s g -> Forall S (written s) -> I g -> (exists r, run_stmt s g = Ok r) -> along Q s g.
Proof.
  intros Ha Hn Hs HPQ.
  assert (HL : forall l, Forall (fun s => forall g, along P s g -> Forall S (written s) -> I g -> (exists r, run_stmt s g = Ok r) -> along Q s g) l ->
    forall g, all_along P l g -> Forall S (concat (map written l)) -> I g -> (exists r, run_stmts l g = Ok r) -> all_along Q l g).
  { induction 1 as [|s l Hsl _ IH]; intros g H HS HI (r & Er); [exact Logic.I|]. cbn [all_along] in *. destruct H as (H1 & H2). cbn [map concat] in HS. apply Forall_app in HS. destruct HS as (S1 & S2). rewrite run_stmts_cons in Er. destruct (run_stmt s g) as [[g1 c1]| |] eqn:E1; try discriminate. cbn [obind] in Er.
    split; [apply Hsl; eauto|]. intros g1' c1' E. injection E as <- <-. apply IH; [eauto|exact S2|eauto|]. destruct (run_stmts l g1) as [[g2 c2]| |]; try discriminate. eauto. }
  induction s as [e n|o|b|a b|i t e es en IHt IHe] using stmt_ind'; intros g H HS HI (r & Er); [exact Logic.I| |exact Logic.I|exact Logic.I|].
  - cbn [along] in *. cbn [written] in HS. inversion HS; subst. apply HPQ; eauto.
  - rewrite along_if in *. destruct H as (H1 & H2). cbn [written] in HS. inversion HS as [|? ? S1 HS1]; subst. apply Forall_app in HS1. destruct HS1 as (St & HS2). apply Forall_app in HS2. destruct HS2 as (_ & HS3). apply Forall_app in HS3. destruct HS3 as (Se & _).
    rewrite run_if_eq in Er. destruct (run_opcode i g) as [[g0 c0]| |] eqn:E0; try discriminate. cbn [obind] in Er.
    split; [apply HPQ; eauto|]. intros g0' c0' var E Ev. injection E as <- <-. destruct (H2 g0 c0 var eq_refl Ev) as (H3 & H4). rewrite Ev in Er.
    assert (HI0 : I g0). { apply (Hs (SOpcode i) g g0 c0); [exact E0|constructor; [exact S1|constructor]|exact HI]. }
    destruct (run_stmts t _) as [[g1 c1]| |] eqn:E1; try discriminate. cbn [obind] in Er.
    split; [apply (HL t IHt); [exact H3|exact St|now apply Ha|eauto]|].
    intros g1' c1' g2 c2 E E2. injection E as <- <-. destruct (H4 g1 c1 g2 c2 eq_refl E2) as (H5 & H6). split; [|exact H6].
    rewrite E2 in Er. cbn [obind] in Er. apply (HL es IHe); [exact H5|exact Se|apply Ha; destruct g0; now apply (Hn _ g_n)|]. destruct (run_stmts es _) as [?| |]; try discriminate. eauto.
Qed.
Lemma all_along_improve (I : gen -> Prop) (P Q : opcode_stmt -> gen -> Prop) (S : stmt -> Prop) :
  (forall a g, I g -> I (with_atom a g)) -> (forall vs n m, I (Gen vs n) -> I (Gen vs m)) ->
  (forall s g g' code, run_stmt s g = Ok (g', code) -> Forall S (written s) -> I g -> I g') ->
  (forall o g, P o g -> S (SOpcode o) -> I g -> (exists r, run_opcode o g = Ok r) -> Q o g) ->
  forall l g, all_along P l g -> Forall S (body l) -> I g -> (exists r, run_stmts l g = Ok r) -> all_along Q l g.
Proof.
  intros Ha Hn Hs HPQ. induction l as [|s l IH]; intros g H HS HI (r & Er); [exact Logic.I|]. cbn [all_along] in *. destruct H as (H1 & H2). unfold body in HS. cbn [map concat] in HS. apply Forall_app in HS. destruct HS as (S1 & S2). rewrite run_stmts_cons in Er. destruct (run_stmt s g) as [[g1 c1]| |] eqn:E1; try discriminate. cbn [obind] in Er.
  split; [apply (along_improve I P Q S Ha Hn Hs HPQ); eauto|]. intros g1' c1' E. injection E as <- <-. apply IH; [eauto|exact S2|eauto|]. destruct (run_stmts l g1) as [[g2 c2]| |]; try discriminate. eauto.
Qed.

(** ** One variant *)
Lemma agree_single g : (length (vs_states (g_vs g)) <= 1)%nat -> forall is_alt k, agree_at is_alt k g.
Proof.
  intros H is_alt k s t i j (v & Hs & _) (w & Ht & _) Hi Hj. destruct (vs_states (g_vs g)) as [|x [|]]; [destruct Hs| |cbn in H; lia]. destruct Hs as [->|[]]. destruct Ht as [Ht|[]]. injection Ht as _ <-. rewrite Hi in Hj. injection Hj as <-. split; reflexivity.
Qed.
Lemma kept_length g g' : kept g g' -> length (vs_states (g_vs g')) = length (vs_states (g_vs g)).
Proof. intros (E & _). unfold keys in E. now rewrite <- (map_length (fun p => (fst p, st_condition (snd p)))), E, map_length. Qed.
Lemma single_coherent l g : (length (vs_states (g_vs g)) <= 1)%nat -> all_along known_depth l g -> (exists r, run_stmts l g = Ok r) -> all_along coherent l g.
Proof.
  intros Hl H Hr. apply (all_along_improve (fun g => (length (vs_states (g_vs g)) <= 1)%nat) known_depth coherent (fun _ => True)) with (g := g); try assumption.
  - intros a g' Hg. exact Hg.
  - intros vs n m Hg. exact Hg.
  - intros s g1 g2 code E _ Hg. rewrite (kept_length _ _ (stmt_kept _ _ _ _ E)). exact Hg.
  - intros o g1 Hk _ Hg _. split; [|exact Hk]. unfold agree. destruct (opcode_by_name (os_ident o)) as [c|]; [|exact Logic.I]. pose proof (agree_single g1 Hg) as A. destruct c; try (intros ? ? ? ?; apply A); try apply A; (split; [apply A|intros; apply A]).
  - apply Forall_forall. intros; exact Logic.I.
Qed.

(** ** Static scripts: invariant of all states *)
Definition plain (i : item) : Prop := it_integer i = None /\ (it_generated i = true -> label_of i = None).
Definition plain_state (s : state) : Prop := Forall plain (st_stack s) /\ Forall plain (st_alt s).
Definition plain_gen (g : gen) : Prop := Forall (fun p => plain_state (snd p)) (vs_states (g_vs g)).
Lemma plain_the s is_alt : plain_state s -> Forall plain (the_stack s is_alt).
Proof. intros (A & B). destruct is_alt; assumption. Qed.
Lemma plain_with s is_alt l : plain_state s -> Forall plain l -> plain_state (with_stack s is_alt l).
Proof. intros (A & B) H. destruct is_alt; split; assumption. Qed.
Lemma plain_push is_alt i g : plain i -> plain_gen g -> plain_gen (g_push is_alt i g).
Proof.
  intros Hi Hg. unfold plain_gen, g_push, vs_push in *. cbn [g_vs vs_states]. apply Forall_map. eapply Forall_impl; [|exact Hg]. intros [v s] Hs. cbn [snd] in *. destruct (holds _ _); [|exact Hs]. apply plain_with; [exact Hs|]. constructor; [exact Hi|now apply plain_the].
Qed.
Lemma plain_nth g : plain_gen g <-> forall k v s, nth_error (vs_states (g_vs g)) k = Some (v, s) -> plain_state s.
Proof.
  unfold plain_gen. rewrite Forall_forall. split; [intros H k v s Hk; apply nth_error_In in Hk; exact (H _ Hk)|]. intros H [v s] Hin. apply In_nth_error in Hin. destruct Hin as (k & Hk). exact (H k v s Hk).
Qed.
Lemma plain_pop is_alt g i g' : g_pop is_alt g = Ok (i, g') -> plain_gen g -> plain i /\ plain_gen g'.
Proof.
  intros E H. rewrite plain_nth in H. destruct (pop_spec _ _ _ _ E) as (_ & _ & El & (s1 & r1 & P1 & T1) & H4). split.
  - apply possible_nth in P1. destruct P1 as (k & v & Hk & _). pose proof (plain_the s1 is_alt (H _ _ _ Hk)) as Hs. rewrite T1 in Hs. now inversion Hs.
  - apply plain_nth. intros k v s' Hk'. destruct (nth_error (vs_states (g_vs g)) k) as [[v0 s0]|] eqn:E0; [|apply nth_error_None in E0; rewrite <- El in E0; apply nth_error_None in E0; congruence].
    specialize (H4 k v0 s0 E0). pose proof (H _ _ _ E0) as Hs0. destruct (holds (st_condition s0) (vs_atoms (g_vs g))).
    + destruct H4 as (i0 & rest & Ht & Hk2 & _). rewrite Hk2 in Hk'. injection Hk' as <- <-. apply plain_with; [exact Hs0|]. pose proof (plain_the s0 is_alt Hs0) as Hs. rewrite Ht in Hs. now inversion Hs.
    + rewrite H4 in Hk'. injection Hk' as <- <-. exact Hs0.
Qed.
Lemma plain_pop_n n : forall g acc items g', pop_n n g acc = Ok (items, g') -> plain_gen g -> Forall plain acc -> Forall plain items /\ plain_gen g'.
Proof.
  induction n as [|n IH]; intros g acc items g' E Hg Hacc; cbn [pop_n] in E; [injection E as <- <-; auto|]. destruct (g_pop false g) as [[i g1]| |] eqn:Ep; try discriminate. cbn [obind] in E. destruct (plain_pop _ _ _ _ Ep Hg) as (Hi & Hg1). eapply IH; eauto.
Qed.
Lemma plain_named n : plain (Item n false None).
Proof. split; [reflexivity|discriminate]. Qed.
Lemma plain_generated n : plain (Item (id_name n) true None).
Proof. split; [reflexivity|]. intros _. unfold label_of. cbn [it_name]. now rewrite made_up_id. Qed.
Lemma plain_outputs c o b ins g1 pushed g2 : made_outputs c o b ins g1 = Ok (pushed, g2) -> Forall plain ins -> Forall plain pushed.
Proof.
  intros E Hi. unfold made_outputs in E. assert (Hn : forall k i, nth_error ins k = Some i -> plain i). { intros k i Hk. rewrite Forall_forall in Hi. apply Hi. now apply nth_error_In in Hk. } destruct (os_outputs o) as [names|].
  - destruct (Nat.eqb _ _); [|discriminate]. destruct (named_spec _ _ _ _ _ _ _ _ E) as (_ & Hl & Hj). apply Forall_forall. intros x Hx. apply In_nth_error in Hx. destruct Hx as (j & Hjx). destruct (nth_error names j) as [n|] eqn:En; [|apply nth_error_None in En; rewrite <- Hl in En; apply nth_error_None in En; congruence].
    specialize (Hj j n En). destruct (String.eqb n "__").
    + destruct (opcode_retains_input c); [destruct Hj as (Hj & _); rewrite Hj in Hjx; eauto|]. destruct Hj as (ord & kk & _ & _ & Hj & _). rewrite Hj in Hjx. eauto.
    + rewrite Hj in Hjx. injection Hjx as <-. apply plain_named.
  - destruct (b_output_order b).
    + destruct (ordered_spec _ _ _ _ _ E) as (_ & H). clear E. induction H as [|k i ord pushed Hk _ IH]; constructor; eauto.
    + destruct (fresh_spec _ _ _ _ _ _ E) as (_ & _ & H). eapply Forall_impl; [|exact H]. intros i. destruct (opcode_retains_input c); [apply Hn|]. intros (k & ->). apply plain_generated.
Qed.
Lemma plain_pushes l : forall g, Forall plain l -> plain_gen g -> plain_gen (fold_left (fun g i => g_push false i g) l g).
Proof. induction l as [|i l IH]; intros g HF Hg; [exact Hg|]. inversion HF; subst. cbn [fold_left]. apply IH; [assumption|]. now apply plain_push. Qed.
Lemma plain_opcode o g g' code : run_opcode o g = Ok (g', code) -> static (SOpcode o) -> plain_gen g -> plain_gen g'.
Proof.
  intros E (Cn & Co) Hg. unfold run_opcode in E. destruct (opcode_by_name (os_ident o)) as [c|] eqn:Hc.
  - assert (Hname := by_name_ident _ _ Hc). rewrite Hname in *.
    assert (D : run_other_opcode c o g = Ok (g', code) \/ c = OP_TOALTSTACK \/ c = OP_FROMALTSTACK \/ c = OP_PICK \/ c = OP_ROLL) by (destruct c; auto).
    destruct D as [D|[->|[->|[->| ->]]]].
    + clear E. unfold run_other_opcode in D. destruct (opcode_behavior c) as [b| |]; try discriminate. cbn [obind] in D. destruct (pop_n (length (b_input_types b)) g []) as [[ins g1]| |] eqn:Ep; try discriminate. cbn [obind] in D.
      match type of D with obind ?x _ = _ => destruct x as [[]| |]; try discriminate end. cbn [obind] in D. fold (made_outputs c o b ins g1) in D. destruct (made_outputs c o b ins g1) as [[pushed g2]| |] eqn:Eo; try discriminate. cbn [obind] in D.
      destruct (func_exists c); [|discriminate]. injection D as <- <-. destruct (plain_pop_n _ _ _ _ _ Ep Hg ltac:(constructor)) as (Hins & Hg1). apply plain_pushes; [eapply plain_outputs; eassumption|]. unfold plain_gen in *. now rewrite (outputs_vs _ _ _ _ _ _ _ Eo).
    + destruct (g_pop false g) as [[i g1]| |] eqn:Ep; try discriminate; cbn [obind] in E. destruct (verify_item_name o i) as [[]| |]; try discriminate; cbn [obind] in E. unfold update_item_name in E. rewrite Co in E by (cbn; auto). cbn [obind] in E. injection E as <- <-. destruct (plain_pop _ _ _ _ Ep Hg) as (Hi & Hg1). now apply plain_push.
    + destruct (g_pop true g) as [[i g1]| |] eqn:Ep; try discriminate; cbn [obind] in E. destruct (verify_item_name o i) as [[]| |]; try discriminate; cbn [obind] in E. unfold update_item_name in E. rewrite Co in E by (cbn; auto). cbn [obind] in E. injection E as <- <-. destruct (plain_pop _ _ _ _ Ep Hg) as (Hi & Hg1). now apply plain_push.
    + exfalso. apply Cn. cbn. auto.
    + exfalso. apply Cn. cbn. auto.
  - unfold run_opcode_function in E. destruct (String.eqb_spec (os_ident o) "depth_of") as [Ed|]; [exfalso; apply Cn; rewrite Ed; cbn; auto|].
    destruct (String.eqb_spec (os_ident o) "depth_of_offset") as [Ed|]; [exfalso; apply Cn; rewrite Ed; cbn; auto|].
    destruct (String.eqb (os_ident o) "transmute"); [|discriminate E]. destruct (os_inputs o) as [[|[ident|] [|? [|]]]|]; try discriminate E. destruct (os_outputs o) as [[|out [|]]|]; repeat match type of E with
      | (if ?b then _ else _) = _ => destruct b; [|discriminate E]
      | obind ?x _ = _ => destruct x; try discriminate E; cbn [obind] in E end; injection E as <- <-; exact Hg.
Qed.
Lemma plain_merge a b : forall x y, Forall (fun p : string * state => plain_state (snd p)) x -> Forall (fun p : string * state => plain_state (snd p)) y -> Forall (fun p : string * state => plain_state (snd p)) (merge_states a b x y).
Proof.
  induction x as [|[v s] x IH]; intros [|[w t] y] Hx Hy; cbn [merge_states]; try constructor; inversion Hx; inversion Hy; subst; cbn [snd] in *; [destruct (_ && _); assumption|auto].
Qed.
Lemma plain_stmt s : Forall static (written s) -> forall g g' code, run_stmt s g = Ok (g', code) -> plain_gen g -> plain_gen g'.
Proof.
  induction s as [e n|o|b|a b|i t e es en IHt IHe] using stmt_ind'; intros Hc g g' code E Hg; try discriminate.
  - cbn [written] in Hc. inversion Hc as [|? ? Hp _]; subst. cbn [run_stmt] in E. unfold run_push in E. destruct n as [n|]; cbn [make_ident] in E; injection E as <- <-; (apply plain_push; [|exact Hg]); [|apply plain_generated]. apply plain_named.
  - cbn [written] in Hc. inversion Hc; subst. eapply plain_opcode; eassumption.
  - assert (HL : forall l, Forall (fun s => Forall static (written s) -> forall g g' code, run_stmt s g = Ok (g', code) -> plain_gen g -> plain_gen g') l -> Forall static (concat (map written l)) -> forall g g' code, run_stmts l g = Ok (g', code) -> plain_gen g -> plain_gen g').
    { induction 1 as [|s l Hs _ IH]; intros Hcl g1 g1' c1 E1 Hg1; [injection E1 as <- <-; exact Hg1|]. cbn [map concat] in Hcl. apply Forall_app in Hcl. destruct Hcl. rewrite run_stmts_cons in E1. destruct (run_stmt s g1) as [[g2 c2]| |] eqn:E2; try discriminate. cbn [obind] in E1. destruct (run_stmts l g2) as [[g3 c3]| |] eqn:E3; try discriminate. cbn [obind] in E1. injection E1 as <- <-. eauto. }
    cbn [written] in Hc. inversion Hc as [|? ? Hci Hc1]; subst. apply Forall_app in Hc1. destruct Hc1 as (Hct & Hc2). apply Forall_app in Hc2. destruct Hc2 as (Hce & Hc3). apply Forall_app in Hc3. destruct Hc3 as (Hces & Hcen). inversion Hcen as [|? ? Hcen' _]; subst.
    rewrite run_if_eq in E. destruct (run_opcode i g) as [[g0 c0]| |] eqn:E0; try discriminate. cbn [obind] in E. destruct (if_variable i) as [var|]; [|discriminate].
    destruct (run_stmts t _) as [[g1 c1]| |] eqn:E1; try discriminate. cbn [obind] in E. destruct (match e with Some o => run_opcode o g1 | None => Ok (g1, []) end) as [[g2 c2]| |] eqn:E2; try discriminate. cbn [obind] in E.
    destruct (run_stmts es _) as [[g3 c3]| |] eqn:E3; try discriminate. cbn [obind] in E. destruct (run_opcode en g3) as [[g4 c4]| |] eqn:E4; try discriminate. cbn [obind] in E. injection E as <- <-.
    pose proof (plain_opcode _ _ _ _ E0 Hci Hg) as H0. pose proof (HL t IHt Hct _ _ _ E1 H0) as H1. pose proof (HL es IHe Hces _ _ _ E3 H0) as H3. pose proof (plain_opcode _ _ _ _ E4 Hcen' H3) as H4.
    assert (H2 : plain_gen g2). { destruct e as [o|]; [inversion Hce; subst; eapply plain_opcode; eassumption|injection E2 as <- <-; exact H1]. }
    unfold plain_gen in *. cbn [g_vs vs_states]. now apply plain_merge.
Qed.

Lemma plain_alike i j x : plain i -> plain j -> alike i x -> alike j x -> same_item i j.
Proof.
  intros (A1 & B1) (A2 & B2) (C1 & D1) (C2 & D2). split; [|congruence]. destruct (it_generated i) eqn:Gi.
  - rewrite B1, B2 by congruence. reflexivity.
  - unfold label_of. rewrite D1, D2 by congruence. reflexivity.
Qed.
Lemma plain_possible g s is_alt : plain_gen g -> possible g s -> Forall plain (the_stack s is_alt).
Proof. intros Hg Hp. apply possible_nth in Hp. destruct Hp as (k & v & Hk & _). rewrite plain_nth in Hg. apply plain_the. eauto. Qed.
Lemma plain_agree is_alt g i g' : g_pop is_alt g = Ok (i, g') -> plain_gen g -> agree_at is_alt 0 g.
Proof.
  intros E Hg s t x y Hs Ht Hx Hy. destruct (pop_possible_fw _ _ _ _ E s Hs) as (s0 & a & _ & Es & _ & Hal). destruct (pop_possible_fw _ _ _ _ E t Ht) as (t0 & b & _ & Et & _ & Hbl).
  pose proof (plain_possible g s is_alt Hg Hs) as Ps. pose proof (plain_possible g t is_alt Hg Ht) as Pt. rewrite Es in Hx, Ps. rewrite Et in Hy, Pt. cbn [nth_error] in Hx, Hy. injection Hx as <-. injection Hy as <-. inversion Ps; inversion Pt; subst. eapply plain_alike; eassumption.
Qed.
Lemma plain_agree_n n : forall g acc items g', pop_n n g acc = Ok (items, g') -> plain_gen g -> forall k, (k < n)%nat -> agree_at false k g.
Proof.
  induction n as [|n IH]; intros g acc items g' E Hg k Hk; [lia|]. cbn [pop_n] in E. destruct (g_pop false g) as [[i g1]| |] eqn:Ep; try discriminate. cbn [obind] in E. destruct k as [|k]; [eapply plain_agree; eassumption|]. eapply pop_agree_back; [exact Ep|]. eapply IH; [exact E| |lia]. now apply (plain_pop _ _ _ _ Ep).
Qed.
Lemma static_coherent l g : plain_gen g -> Forall static (body l) -> all_along (fun _ _ => True) l g -> (exists r, run_stmts l g = Ok r) -> all_along coherent l g.
Proof.
  intros Hg HS H Hr. apply (all_along_improve plain_gen (fun _ _ => True) coherent static) with (g := g); try assumption.
  - intros a g' H'. exact H'.
  - intros vs n m H'. exact H'.
  - intros s g1 g2 code E Hs Hg1. eapply plain_stmt; eassumption.
  - intros o g1 _ (Cn & Co) Hg1 ([g2 code] & Er). split.
    + unfold agree. unfold run_opcode in Er. destruct (opcode_by_name (os_ident o)) as [c|] eqn:Hc; [|exact Logic.I]. assert (Hname := by_name_ident _ _ Hc). rewrite Hname in *.
      assert (HO : run_other_opcode c o g1 = Ok (g2, code) -> forall b k, opcode_behavior c = Ok b -> (k < length (b_input_types b))%nat -> agree_at false k g1).
      { intros E b k Eb Hk. unfold run_other_opcode in E. rewrite Eb in E. cbn [obind] in E. destruct (pop_n (length (b_input_types b)) g1 []) as [[ins g3]| |] eqn:Ep; try discriminate. eapply plain_agree_n; eassumption. }
      destruct c; try (now apply HO).
      * intros b k Eb Hk. injection Eb as <-. cbn [b_input_types length] in Hk. assert (k = 0)%nat as -> by lia. destruct (g_pop false g1) as [[i g3]| |] eqn:Ep; try discriminate. eapply plain_agree; eassumption.
      * destruct (g_pop true g1) as [[i g3]| |] eqn:Ep; try discriminate. eapply plain_agree; eassumption.
      * exfalso. apply Cn. cbn. auto.
      * exfalso. apply Cn. cbn. auto.
    + intros [E|E]; exfalso; apply Cn; rewrite E; cbn; auto.
Qed.
Lemma run_inputs_plain enum ins : forall vs vs', run_inputs enum ins vs = Ok vs' -> plain_gen (Gen vs 0) -> plain_gen (Gen vs' 0).
Proof.
  assert (HV : forall v i l l', plain i -> push_variant v i l = Ok l' -> Forall (fun p => plain_state (snd p)) l -> Forall (fun p : string * state => plain_state (snd p)) l').
  { intros v i l. induction l as [|[w s] l IH]; intros l' Hi E HF; cbn [push_variant] in E; [discriminate|]. inversion HF; subst. cbn [snd] in *. destruct (String.eqb w v).
    - injection E as <-. constructor; [|assumption]. cbn [snd]. apply (plain_with s false); [assumption|]. constructor; [exact Hi|]. match goal with H : plain_state s |- _ => apply H end.
    - destruct (push_variant v i l) as [r'| |]; try discriminate. cbn [obind] in E. injection E as <-. constructor; auto. }
  assert (HVs : forall i, plain i -> forall vs l l', push_variants enum vs i l = Ok l' -> Forall (fun p => plain_state (snd p)) l -> Forall (fun p : string * state => plain_state (snd p)) l').
  { intros i Hi. induction vs as [|v vs IH]; intros l l' E HF; cbn [push_variants] in E; [now injection E as <-|]. destruct (push_variant v i l) as [l1| |] eqn:E1; try discriminate. cbn [obind] in E. destruct enum; [|discriminate]. eapply IH; [exact E|]. eapply HV; eassumption. }
  induction ins as [|i ins IH]; intros vs vs' E HF; cbn [run_inputs] in E; [now injection E as <-|]. match type of E with obind ?x _ = _ => destruct x as [vs1| |] eqn:E1; try discriminate end. cbn [obind] in E. eapply IH; [exact E|].
  destruct (in_variants i) as [names|].
  - destruct (push_variants enum names (Item (in_ident i) false None) (vs_states vs)) as [l1| |] eqn:E2; try discriminate. cbn [obind] in E1. injection E1 as <-. unfold plain_gen. cbn [g_vs vs_states]. eapply HVs; [apply plain_named|exact E2|exact HF].
  - injection E1 as <-. apply (plain_push false _ (Gen vs 0)); [apply plain_named|exact HF].
Qed.
Lemma initial_plain m : plain_gen (Gen (VStates (initial_states m) []) 0).
Proof.
  unfold plain_gen. cbn [g_vs vs_states]. unfold initial_states. destruct (ms_variants m) as [|x l]; [repeat constructor|]. apply Forall_map. apply Forall_forall. intros [v p] _. cbn. split; constructor.
Qed.

(** ** What is generated *)
Lemma opcode_emits o g g' code : run_opcode o g = Ok (g', code) -> map em_src code = filter emits [SOpcode o].
Proof.
  intros E. cbn [filter emits]. unfold run_opcode in E. destruct (opcode_by_name (os_ident o)) as [c|] eqn:Hc.
  - assert (Hname := by_name_ident _ _ Hc). assert (String.eqb (os_ident o) "transmute" = false) as ->. { rewrite Hname. destruct c; reflexivity. } cbn [negb].
    assert (D : run_other_opcode c o g = Ok (g', code) \/ c = OP_TOALTSTACK \/ c = OP_FROMALTSTACK \/ c = OP_PICK \/ c = OP_ROLL) by (destruct c; auto).
    destruct D as [D|[->|[->|[->| ->]]]]; [unfold run_other_opcode in D; clear E; rename D into E| | | |];
    repeat (match type of E with
      | obind ?x _ = _ => destruct x as [?| |]; try discriminate E; cbn [obind] in E
      | (let (_, _) := ?x in _) = _ => destruct x
      | (if ?x then _ else _) = _ => destruct x; try discriminate E end); injection E as <- <-; reflexivity.
  - unfold run_opcode_function in E.
    assert (HD : forall x z, run_depth_of o g x z = Ok (g', code) -> map em_src code = [SOpcode o]).
    { clear E. intros x z E. unfold run_depth_of in E. destruct (vs_find x (g_vs g)); try discriminate. cbn [obind] in E. destruct (match os_outputs o with Some [n] => (n, g) | _ => make_ident g end) as [name g1]. destruct (integer_new _); try discriminate. cbn [obind] in E. injection E as <- <-. reflexivity. }
    destruct (String.eqb_spec (os_ident o) "depth_of") as [Ed|]. { rewrite Ed. destruct (os_inputs o) as [[|[ident|] [|]]|]; try discriminate E. cbn. eauto. }
    destruct (String.eqb_spec (os_ident o) "depth_of_offset") as [Ed|]. { rewrite Ed. destruct (os_inputs o) as [[|[ident|] [|[|t z] [|]]]|]; try discriminate E. cbn. eauto. }
    destruct (String.eqb (os_ident o) "transmute"); [|discriminate E]. destruct (os_inputs o) as [[|[ident|] [|? [|]]]|]; try discriminate E. destruct (os_outputs o) as [[|out [|]]|]; repeat match type of E with
      | (if ?b then _ else _) = _ => destruct b; [|discriminate E]
      | obind ?x _ = _ => destruct x; try discriminate E; cbn [obind] in E end; injection E as <- <-; reflexivity.
Qed.
Lemma stmt_emits s : forall g g' code, run_stmt s g = Ok (g', code) -> map em_src code = filter emits (written s).
Proof.
  induction s as [e n|o|b|a b|i t e es en IHt IHe] using stmt_ind'; intros g g' code E; try discriminate.
  - cbn [run_stmt] in E. unfold run_push in E. destruct n; cbn [make_ident] in E; injection E as <- <-; reflexivity.
  - exact (opcode_emits _ _ _ _ E).
  - assert (HL : forall l, Forall (fun s => forall g g' code, run_stmt s g = Ok (g', code) -> map em_src code = filter emits (written s)) l -> forall g g' code, run_stmts l g = Ok (g', code) -> map em_src code = filter emits (concat (map written l))).
    { induction 1 as [|s l Hs _ IH]; intros g1 g1' c1 E1; [injection E1 as <- <-; reflexivity|]. rewrite run_stmts_cons in E1. destruct (run_stmt s g1) as [[g2 c2]| |] eqn:E2; try discriminate. cbn [obind] in E1. destruct (run_stmts l g2) as [[g3 c3]| |] eqn:E3; try discriminate. cbn [obind] in E1. injection E1 as <- <-. cbn [map concat]. rewrite map_app, filter_app. f_equal; eauto. }
    rewrite run_if_eq in E. destruct (run_opcode i g) as [[g0 c0]| |] eqn:E0; try discriminate. cbn [obind] in E. destruct (if_variable i) as [var|]; [|discriminate].
    destruct (run_stmts t _) as [[g1 c1]| |] eqn:E1; try discriminate. cbn [obind] in E. destruct (match e with Some o => run_opcode o g1 | None => Ok (g1, []) end) as [[g2 c2]| |] eqn:E2; try discriminate. cbn [obind] in E.
    destruct (run_stmts es _) as [[g3 c3]| |] eqn:E3; try discriminate. cbn [obind] in E. destruct (run_opcode en g3) as [[g4 c4]| |] eqn:E4; try discriminate. cbn [obind] in E. injection E as <- <-.
    apply opcode_emits in E0, E4. apply (HL t IHt) in E1. apply (HL es IHe) in E3. assert (H2 : map em_src c2 = filter emits (match e with Some o => [SOpcode o] | None => [] end)). { destruct e; [now apply opcode_emits in E2|injection E2 as <- <-; reflexivity]. }
    cbn [written]. change (SOpcode i :: ?x) with ([SOpcode i] ++ x). rewrite !map_app, !filter_app, E0, E1, H2, E3, E4. reflexivity.
Qed.
Lemma stmts_emits l : forall g g' code, run_stmts l g = Ok (g', code) -> map em_src code = filter emits (body l).
Proof.
  induction l as [|s l IH]; intros g1 g1' c1 E1; [injection E1 as <- <-; reflexivity|]. rewrite run_stmts_cons in E1. destruct (run_stmt s g1) as [[g2 c2]| |] eqn:E2; try discriminate. cbn [obind] in E1. destruct (run_stmts l g2) as [[g3 c3]| |] eqn:E3; try discriminate. cbn [obind] in E1. injection E1 as <- <-. unfold body. cbn [map concat]. rewrite map_app, filter_app. f_equal; [eapply stmt_emits; eassumption|eapply IH; eassumption].
Qed.
Lemma opcode_right o g g' code : run_opcode o g = Ok (g', code) -> Forall op_right code.
Proof.
  intros E. destruct (opcode_code _ _ _ _ E) as [->|(e & -> & Hsrc & H)]; [constructor|]. constructor; [|constructor]. unfold op_right. rewrite Hsrc. destruct H as [(c & Hc & He)|(n & Hn)]; [now rewrite Hc|].
  destruct (opcode_by_name (os_ident o)) as [c|] eqn:Hc; [|eauto]. exfalso. unfold run_opcode in E. rewrite Hc in E.
  assert (D : run_other_opcode c o g = Ok (g', [e]) \/ c = OP_TOALTSTACK \/ c = OP_FROMALTSTACK \/ c = OP_PICK \/ c = OP_ROLL) by (destruct c; auto).
    destruct D as [D|[->|[->|[->| ->]]]]; [unfold run_other_opcode in D; clear E; rename D into E| | | |];
    repeat (match type of E with
      | obind ?x _ = _ => destruct x as [?| |]; try discriminate E; cbn [obind] in E
      | (let (_, _) := ?x in _) = _ => destruct x
      | (if ?x then _ else _) = _ => destruct x; try discriminate E end); injection E as <- <-; discriminate Hn.
Qed.
Lemma stmt_right s : forall g g' code, run_stmt s g = Ok (g', code) -> Forall op_right code.
Proof.
  induction s as [e n|o|b|a b|i t e es en IHt IHe] using stmt_ind'; intros g g' code E; try discriminate.
  - cbn [run_stmt] in E. unfold run_push in E. destruct n; cbn [make_ident] in E; injection E as <- <-; (constructor; [reflexivity|constructor]).
  - exact (opcode_right _ _ _ _ E).
  - assert (HL : forall l, Forall (fun s => forall g g' code, run_stmt s g = Ok (g', code) -> Forall op_right code) l -> forall g g' code, run_stmts l g = Ok (g', code) -> Forall op_right code).
    { induction 1 as [|s l Hs _ IH]; intros g1 g1' c1 E1; [injection E1 as <- <-; constructor|]. rewrite run_stmts_cons in E1. destruct (run_stmt s g1) as [[g2 c2]| |] eqn:E2; try discriminate. cbn [obind] in E1. destruct (run_stmts l g2) as [[g3 c3]| |] eqn:E3; try discriminate. cbn [obind] in E1. injection E1 as <- <-. apply Forall_app. split; eauto. }
    rewrite run_if_eq in E. destruct (run_opcode i g) as [[g0 c0]| |] eqn:E0; try discriminate. cbn [obind] in E. destruct (if_variable i) as [var|]; [|discriminate].
    destruct (run_stmts t _) as [[g1 c1]| |] eqn:E1; try discriminate. cbn [obind] in E. destruct (match e with Some o => run_opcode o g1 | None => Ok (g1, []) end) as [[g2 c2]| |] eqn:E2; try discriminate. cbn [obind] in E.
    destruct (run_stmts es _) as [[g3 c3]| |] eqn:E3; try discriminate. cbn [obind] in E. destruct (run_opcode en g3) as [[g4 c4]| |] eqn:E4; try discriminate. cbn [obind] in E. injection E as <- <-.
    apply opcode_right in E0, E4. apply (HL t IHt) in E1. apply (HL es IHe) in E3. assert (H2 : Forall op_right c2). { destruct e; [now apply opcode_right in E2|injection E2 as <- <-; constructor]. }
    rewrite !Forall_app. repeat split; assumption.
Qed.
Lemma stmts_right l : forall g g' code, run_stmts l g = Ok (g', code) -> Forall op_right code.
Proof.
  induction l as [|s l IH]; intros g1 g1' c1 E1; [injection E1 as <- <-; constructor|]. rewrite run_stmts_cons in E1. destruct (run_stmt s g1) as [[g2 c2]| |] eqn:E2; try discriminate. cbn [obind] in E1. destruct (run_stmts l g2) as [[g3 c3]| |] eqn:E3; try discriminate. cbn [obind] in E1. injection E1 as <- <-. apply Forall_app. split; [eapply stmt_right; eassumption|eapply IH; eassumption].
Qed.
