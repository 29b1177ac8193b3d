(** Lemmas for C39: every opcode statement keeps the tracked names and the machine's names together. *)
From Verif Require Import Base BaseLemmas Spec_Encoding Model_Integer Model_ByteArray Model_Opcode Model_Script Model_Behavior Model_Macro Spec_Macro Proofs_Integer Proofs_Script Proofs_Macro Proofs_Macro2 Proofs_Macro3.
Local Open Scope string_scope.
Local Open Scope list_scope.
Local Open Scope Z_scope.

Ltac step_cases H He := inversion H; subst;
  repeat match goal with A : em_op _ = _ |- _ => lazymatch A with He => fail | _ => rewrite He in A; first [discriminate A | injection A; clear A; intros A; try (match type of A with _ = ?v => subst v end)] end end; subst.
Lemma inv_shuffle e c s a s' a' : em_op e = EmCode c -> is_shuffle c = true -> op_step e s a s' a' -> a' = a /\ exists s0, shuffle c s = Some s0 /\ s' = relabel (out_names e) s0.
Proof.
  intros He Hc H. step_cases H He; try discriminate Hc; eauto.
  - rewrite (not_both c Hc) in *. discriminate.
  - match goal with B : _ \/ _ |- _ => destruct B; subst; discriminate Hc end.
Qed.
Lemma inv_compute e c n m s a s' a' : em_op e = EmCode c -> arity c = Some (n, m) -> op_step e s a s' a' ->
  a' = a /\ exists used made r, s = used ++ r /\ length used = n /\ length made = m /\ Forall (fun i => r_label i = None) made /\ s' = relabel (out_names e) (made ++ r).
Proof.
  intros He Hc H. step_cases H He; try discriminate Hc.
  - match goal with B : shuffle c s = Some _ |- _ => destruct c; try discriminate Hc; discriminate B end.
  - rewrite Hc in *. match goal with B : Some _ = Some _ |- _ => injection B; intros; subst end. split; [reflexivity|]. exists used, made, s0. auto.
  - match goal with B : _ \/ _ |- _ => destruct B; subst; discriminate Hc end.
Qed.
Lemma inv_size e s a s' a' : em_op e = EmCode OP_SIZE -> op_step e s a s' a' -> a' = a /\ exists i v r, s = i :: r /\ s' = relabel (out_names e) (RItem None v :: i :: r).
Proof.
  intros He H. step_cases H He; try discriminate.
  - split; [reflexivity|]. eauto.
  - match goal with B : _ \/ _ |- _ => destruct B; subst; discriminate end.
Qed.
Lemma inv_keep e c s a s' a' : em_op e = EmCode c -> c = OP_CHECKLOCKTIMEVERIFY \/ c = OP_CHECKSEQUENCEVERIFY -> op_step e s a s' a' -> a' = a /\ s' = relabel (out_names e) s.
Proof.
  intros He Hc H. step_cases H He; try (destruct Hc; discriminate).
  - destruct Hc; subst; match goal with B : shuffle _ s = Some _ |- _ => discriminate B end.
  - destruct Hc; subst; discriminate.
  - auto.
Qed.
Lemma inv_toalt e s a s' a' : em_op e = EmCode OP_TOALTSTACK -> op_step e s a s' a' -> exists i, s = i :: s' /\ a' = relabel (out_names e) (i :: a).
Proof.
  intros He H. step_cases H He; try discriminate.
  - match goal with B : _ \/ _ |- _ => destruct B; subst; discriminate end.
  - eauto.
Qed.
Lemma inv_fromalt e s a s' a' : em_op e = EmCode OP_FROMALTSTACK -> op_step e s a s' a' -> exists i, a = i :: a' /\ s' = relabel (out_names e) (i :: s).
Proof.
  intros He H. step_cases H He; try discriminate.
  - match goal with B : _ \/ _ |- _ => destruct B; subst; discriminate end.
  - eauto.
Qed.
Lemma inv_pick e s a s' a' : em_op e = EmCode OP_PICK -> op_step e s a s' a' -> a' = a /\ exists i r d x, s = i :: r /\ script_num (r_value i) = Z.of_nat d /\ nth_error r d = Some x /\ s' = relabel (out_names e) (x :: r).
Proof.
  intros He H. step_cases H He; try discriminate.
  - match goal with B : _ \/ _ |- _ => destruct B; subst; discriminate end.
  - split; [reflexivity|]. exists i, s0, d, x. auto.
Qed.
Lemma inv_roll e s a s' a' : em_op e = EmCode OP_ROLL -> op_step e s a s' a' -> a' = a /\ exists i above x below, s = i :: above ++ x :: below /\ script_num (r_value i) = Z.of_nat (length above) /\ s' = relabel (out_names e) (x :: above ++ below).
Proof.
  intros He H. step_cases H He; try discriminate.
  - match goal with B : _ \/ _ |- _ => destruct B; subst; discriminate end.
  - split; [reflexivity|]. exists i, above, x, below. auto.
Qed.
Lemma inv_push e o s a s' a' : em_op e = EmPush o -> op_step e s a s' a' -> a' = a /\ exists v, s' = RItem (match em_src e with SPush _ n => n | _ => None end) v :: s.
Proof. intros He H. step_cases H He. split; [reflexivity|]. eauto. Qed.
Lemma inv_number e k s a s' a' : em_op e = EmNumber k -> op_step e s a s' a' -> a' = a /\ exists v, script_num v = k /\ s' = relabel (out_names e) (RItem None v :: s).
Proof. intros He H. step_cases H He. split; [reflexivity|]. eauto. Qed.

(** What an opcode statement must achieve, from the view of one possible variant. *)
Definition leaf_goal (st : stmt) (g g' : gen) (code : list emitted) (k : nat) (v : string) (s : state) (main alt : list ritem) : Prop :=
  vs_atoms (g_vs g') = vs_atoms (g_vs g) /\ length (vs_states (g_vs g')) = length (vs_states (g_vs g)) /\
  exists s', nth_error (vs_states (g_vs g')) k = Some (v, s') /\ st_condition s' = st_condition s /\
  ((code = [] /\ s' = s) \/
   exists e, code = [e] /\ em_src e = st /\ ~ is_control (em_op e) /\ good_op e main alt /\
     forall main' alt', op_step e main alt main' alt' -> recorded (rev (em_pushed e)) main' /\ recorded (rev (em_alt_pushed e)) alt' /\ Rs s' main' alt').

Lemma recorded_pushed pushed top r : Forall2 rel pushed top -> recorded (rev (map name_tokens pushed)) (rev top ++ r).
Proof. intros H. rewrite <- map_rev. apply recorded_rel. now apply Forall2_rev. Qed.
Lemma is_if_shuffle c : is_shuffle c = true -> ~ is_control (EmCode c).
Proof. intros H [E|[E|E]]; injection E as ->; discriminate. Qed.
Lemma arity_control c n m : arity c = Some (n, m) -> ~ is_control (EmCode c) /\ is_shuffle c = false.
Proof. intros H. split; [intros [E|[E|E]]; injection E as ->; discriminate|]. destruct c; try discriminate; reflexivity. Qed.
Lemma enough_arity c n m s a : arity c = Some (n, m) -> (n <= length s)%nat -> enough c s a.
Proof. intros H Hn. unfold enough. rewrite (proj2 (arity_control c n m H)). destruct c; try discriminate H; exists n, m; auto. Qed.
Lemma arity_not_fromalt c : (is_shuffle c = true \/ arity c <> None) -> opcode_eqb c OP_FROMALTSTACK = false.
Proof. intros [H|H]; destruct c; try discriminate H; try reflexivity. exfalso. now apply H. Qed.
Lemma app_split {A} (u : list A) : forall u' r r', length u = length u' -> u ++ r = u' ++ r' -> u = u' /\ r = r'.
Proof. induction u as [|x u IH]; intros [|y u'] r r' Hl E; cbn in Hl; try lia; [auto|]. injection E as -> E. destruct (IH u' r r' ltac:(lia) E) as (-> & ->). auto. Qed.

(** Ordinary opcodes. *)
Lemma other_ok c o g g' code k v s main alt :
  opcode_by_name (os_ident o) = Some c -> c <> OP_IF -> c <> OP_ELSE -> c <> OP_ENDIF -> c <> OP_TOALTSTACK -> c <> OP_FROMALTSTACK -> c <> OP_PICK -> c <> OP_ROLL ->
  run_other_opcode c o g = Ok (g', code) -> clean (SOpcode o) -> (forall b j, opcode_behavior c = Ok b -> (j < length (b_input_types b))%nat -> agree_at false j g) ->
  nth_error (vs_states (g_vs g)) k = Some (v, s) -> holds_in (g_vs g) s -> Rs s main alt -> leaf_goal (SOpcode o) g g' code k v s main alt.
Proof.
  intros Hc N1 N2 N3 N4 N5 N6 N7 E (_ & Cm & _ & Csize & _) Ha Hk Hh HR. pose proof HR as (_ & HR2). destruct (other_core _ _ _ _ _ _ _ _ _ _ E Ha Hk Hh HR) as (A & L & b & ins & pushed & used & rest & r0 & g1 & g2 & Eb & Hli & Hlu & Em & HF & HFr & Eo & Ef & Hd & Hdl & Ecode & Hk').
  split; [exact A|]. split; [exact L|]. eexists. split; [exact Hk'|]. split; [apply with_stack_condition|]. right. set (e := Emitted (EmCode c) (map name_tokens pushed) [] (SOpcode o)) in *. exists e. split; [exact Ecode|]. split; [reflexivity|].
  assert (Hdecl : declared (in_names e) main). { subst main. now apply (declared_in o e used r0 eq_refl). }
  assert (Hon : out_names e = rev (given (os_outputs o))) by (now apply out_names_rev).
  assert (Hfin : forall top r, Forall2 rel pushed top -> Forall2 rel rest r -> recorded (rev (map name_tokens pushed)) (rev top ++ r) /\ recorded (rev []) alt /\ Rs (with_stack s false (rev pushed ++ rest)) (rev top ++ r) alt).
  { intros top r Ht Hr. split; [now apply recorded_pushed|]. split; [exact I|]. split; [cbn; apply Forall2_app; [now apply Forall2_rev|exact Hr]|exact HR2]. }
  destruct (func_classes c Ef) as [Hs|[(n & m & Hnm)|Hsp]].
  - (* shuffles *)
    split; [now apply is_if_shuffle|]. destruct (shuffle_table c Hs) as (b' & ord & Eb' & Eord & Hol & Hret & _ & Hsh). rewrite Eb in Eb'. injection Eb' as <-.
    assert (Hlb : length used = length (b_input_types b)) by congruence. destruct (Hsh ritem used r0 Hlb) as (picked & HP & Hshuf). split.
    + unfold good_op. cbn [em_op e]. rewrite (arity_not_fromalt c (or_introl Hs)). split; [|exact Hdecl]. unfold enough. rewrite Hs, Em, Hshuf. discriminate.
    + intros main' alt' Hst. destruct (inv_shuffle e c main alt main' alt' eq_refl Hs Hst) as (-> & s0 & Es0 & ->). rewrite Em, Hshuf in Es0. injection Es0 as <-.
      destruct (outputs_shuffle _ _ _ _ _ _ _ _ _ _ Eo Eord Hol Hret Cm HF HP) as (Hlen & Hrel). rewrite Hon, relabel_top by exact Hlen. now apply Hfin.
  - (* computing opcodes *)
    destruct (arity_control c n m Hnm) as (Hnc & _). split; [exact Hnc|]. destruct (arity_table c n m Hnm) as (b' & Eb' & Hin & Hout & Hret & _ & Hord). rewrite Eb in Eb'. injection Eb' as <-. split.
    + unfold good_op. cbn [em_op e]. rewrite arity_not_fromalt by (right; congruence). split; [|exact Hdecl]. apply (enough_arity c n m); [exact Hnm|]. subst main. rewrite app_length, rev_length. lia.
    + intros main' alt' Hst. destruct (inv_compute e c n m main alt main' alt' eq_refl Hnm Hst) as (-> & used' & made & r & Emain & Hu' & Hm' & HN & ->).
      rewrite Em in Emain. assert (Hlb : length (rev used) = length used') by (rewrite rev_length; lia). destruct (app_split _ _ _ _ Hlb Emain) as (_ & <-).
      destruct (outputs_compute c o b ins (rev made) g1 pushed g2 Eo Hret) as (Hlen & Hrel); [destruct Hord as [Ho|(Hn0 & Ho)]; [now left|right; split; [lia|exact Ho]]|exact Cm|rewrite rev_length; lia|now apply Forall_rev|].
      rewrite Hon. rewrite <- (rev_involutive made). rewrite relabel_top by exact Hlen. now apply Hfin.
  - (* the rest *)
    destruct Hsp as [->|[->|[->|[->|[->|[->|[->|[->|[->| ->]]]]]]]]]; try congruence.
    + (* OP_SIZE *)
      split; [intros [H|[H|H]]; discriminate|]. injection Eb as <-. cbn [b_input_types length] in Hli. destruct ins as [|i0 [|]]; cbn in Hli; try lia. destruct used as [|r1 [|]]; cbn in Hlu; try lia. cbn [rev app] in Em. subst main.
      split; [split; [discriminate|exact Hdecl]|]. intros main' alt' Hst. destruct (inv_size e _ alt main' alt' eq_refl Hst) as (-> & i & w & r & Emain & ->). injection Emain as <- <-.
      destruct Csize as (x & y & Eout & Hy). { apply opcode_by_name_iff in Hc. destruct Hc as (-> & _). reflexivity. }
      unfold made_outputs in Eo. rewrite Eout in Eo. cbn [b_output_types length Nat.eqb] in Eo.
      assert (Forall2 rel pushed (relabel [x; y] [r1; RItem None w])) as Hrel.
      { apply (named_rel _ _ _ _ _ _ _ [r1; RItem None w] Eo); [intros z Hz; exact (Cm _ z Eout Hz)|reflexivity|]. intros j q Hq Hn i Hi. destruct (named_spec _ _ _ _ _ _ _ _ Eo) as (_ & _ & Hj). specialize (Hj j "__" Hn). cbn in Hj.
        destruct Hj as (Hj & _). rewrite Hj in Hi. injection Hi as <-. destruct j as [|[|j]]; cbn in Hq, Hn; [injection Hq as <-; now inversion HF|congruence|destruct j; discriminate]. }
      rewrite Hon, Eout. cbn [given]. change (RItem None w :: r1 :: r0) with (rev [r1; RItem None w] ++ r0). rewrite relabel_top by (now left). now apply Hfin.
    + (* CLTV *)
      split; [intros [H|[H|H]]; discriminate|]. injection Eb as <-. cbn [b_input_types length] in Hli. destruct ins as [|i0 [|]]; cbn in Hli; try lia. destruct used as [|r1 [|]]; cbn in Hlu; try lia. cbn [rev app] in Em. subst main.
      split; [split; [discriminate|exact Hdecl]|]. intros main' alt' Hst. destruct (inv_keep e _ _ alt main' alt' eq_refl (or_introl eq_refl) Hst) as (-> & ->).
      assert ((length (given (os_outputs o)) = length [r1] \/ given (os_outputs o) = []) /\ Forall2 rel pushed (relabel (given (os_outputs o)) [r1])) as (Hlen & Hrel).
      { unfold made_outputs in Eo. cbn [b_output_types b_output_order length] in Eo. destruct (os_outputs o) as [names|] eqn:Eout; cbn [given].
        - destruct (Nat.eqb_spec (length names) 1) as [El|]; [|discriminate]. split; [now left|]. apply (named_rel _ _ _ _ _ _ _ [r1] Eo); [intros z Hz; exact (Cm _ z eq_refl Hz)|now rewrite El|]. intros j q Hq Hn i Hi. destruct (named_spec _ _ _ _ _ _ _ _ Eo) as (_ & _ & Hj). specialize (Hj j "__" Hn). cbn in Hj. destruct Hj as (Hj & _). rewrite Hj in Hi. injection Hi as <-.
          destruct j as [|j]; cbn in Hq; [injection Hq as <-; now inversion HF|destruct j; discriminate].
        - split; [now right|]. rewrite relabel_nil. destruct (fresh_spec _ _ _ _ _ _ Eo) as (_ & Hpl & HP). destruct pushed as [|p [|]]; cbn in Hpl; try lia. inversion HP as [|? ? Hp ?]; subst. cbn in Hp. injection Hp as <-. exact HF. }
      rewrite Hon. change (r1 :: r0) with (rev [r1] ++ r0). rewrite relabel_top by exact Hlen. now apply Hfin.
    + (* CSV *)
      split; [intros [H|[H|H]]; discriminate|]. injection Eb as <-. cbn [b_input_types length] in Hli. destruct ins as [|i0 [|]]; cbn in Hli; try lia. destruct used as [|r1 [|]]; cbn in Hlu; try lia. cbn [rev app] in Em. subst main.
      split; [split; [discriminate|exact Hdecl]|]. intros main' alt' Hst. destruct (inv_keep e _ _ alt main' alt' eq_refl (or_intror eq_refl) Hst) as (-> & ->).
      assert ((length (given (os_outputs o)) = length [r1] \/ given (os_outputs o) = []) /\ Forall2 rel pushed (relabel (given (os_outputs o)) [r1])) as (Hlen & Hrel).
      { unfold made_outputs in Eo. cbn [b_output_types b_output_order length] in Eo. destruct (os_outputs o) as [names|] eqn:Eout; cbn [given].
        - destruct (Nat.eqb_spec (length names) 1) as [El|]; [|discriminate]. split; [now left|]. apply (named_rel _ _ _ _ _ _ _ [r1] Eo); [intros z Hz; exact (Cm _ z eq_refl Hz)|now rewrite El|]. intros j q Hq Hn i Hi. destruct (named_spec _ _ _ _ _ _ _ _ Eo) as (_ & _ & Hj). specialize (Hj j "__" Hn). cbn in Hj. destruct Hj as (Hj & _). rewrite Hj in Hi. injection Hi as <-.
          destruct j as [|j]; cbn in Hq; [injection Hq as <-; now inversion HF|destruct j; discriminate].
        - split; [now right|]. rewrite relabel_nil. destruct (fresh_spec _ _ _ _ _ _ Eo) as (_ & Hpl & HP). destruct pushed as [|p [|]]; cbn in Hpl; try lia. inversion HP as [|? ? Hp ?]; subst. cbn in Hp. injection Hp as <-. exact HF. }
      rewrite Hon. change (r1 :: r0) with (rev [r1] ++ r0). rewrite relabel_top by exact Hlen. now apply Hfin.
Qed.

Lemma by_name_ident o c : opcode_by_name (os_ident o) = Some c -> os_ident o = opcode_name c.
Proof. intros H. now apply opcode_by_name_iff in H. Qed.
Lemma update_rel o i i' r : update_item_name o i = Ok i' -> os_outputs o <> Some ["__"] -> (forall l x, os_outputs o = Some l -> In x l -> made_up x = false) -> rel i r ->
  forall rest, relabel (rev (given (os_outputs o))) (r :: rest) = (match os_outputs o with Some [n] => RItem (Some n) (r_value r) | _ => r end) :: rest /\ rel i' (match os_outputs o with Some [n] => RItem (Some n) (r_value r) | _ => r end).
Proof.
  intros E Hn Hm Hr rest. unfold update_item_name in E. destruct (os_outputs o) as [[|n [|]]|]; try discriminate; cbn [given rev app].
  - injection E as <-. cbn [relabel]. destruct (String.eqb_spec n "__") as [->|]; [congruence|]. split; [destruct rest; reflexivity|]. specialize (Hm [n] n eq_refl (or_introl eq_refl)). destruct Hr as (H1 & H2 & H3).
    unfold rel, label_of. cbn [it_name it_generated it_integer r_label r_value]. rewrite Hm. split; [reflexivity|]. split; [exact H2|reflexivity].
  - injection E as <-. split; [apply relabel_nil|exact Hr].
Qed.
Lemma verify_declared o e i r rest : em_src e = SOpcode o -> verify_item_name o i = Ok tt -> (forall l x, os_inputs o = Some l -> In (InIdent x) l -> made_up x = false) -> rel i r -> declared (in_names e) (r :: rest).
Proof.
  intros Es E Hm (H1 & _ & _). unfold in_names. rewrite Es. unfold verify_item_name in E. destruct (os_inputs o) as [[|n [|]]|]; try discriminate; cbn [rev app declared]; [|exact I]. split; [|exact I].
  intros x -> _. cbn [input_text] in E. destruct (String.eqb_spec x (it_name i)) as [->|]; [|discriminate]. rewrite H1. unfold label_of. now rewrite (Hm [InIdent (it_name i)] (it_name i) eq_refl (or_introl eq_refl)).
Qed.
Lemma Forall2_cons_l {A B} (P : A -> B -> Prop) x l l' : Forall2 P (x :: l) l' -> exists y r, l' = y :: r /\ P x y /\ Forall2 P l r.
Proof. intros H. inversion H; subst. eauto. Qed.
Lemma recorded_one i r rest : rel i r -> recorded (rev [name_tokens i]) (r :: rest).
Proof. intros H. cbn. split; [|exact I]. intros x Hx. eapply rel_token; eassumption. Qed.
Lemma push_own' is_alt i g k v s : nth_error (vs_states (g_vs g)) k = Some (v, s) -> holds_in (g_vs g) s -> nth_error (vs_states (g_vs (g_push is_alt i g))) k = Some (v, with_stack s is_alt (i :: the_stack s is_alt)).
Proof. intros Hk Hh. rewrite (push_own _ _ _ _ _ _ Hk). unfold holds_in in Hh. now rewrite Hh. Qed.

Lemma toalt_ok o g g' code k v s main alt :
  opcode_by_name (os_ident o) = Some OP_TOALTSTACK -> run_opcode o g = Ok (g', code) -> clean (SOpcode o) -> agree o g ->
  nth_error (vs_states (g_vs g)) k = Some (v, s) -> holds_in (g_vs g) s -> Rs s main alt -> leaf_goal (SOpcode o) g g' code k v s main alt.
Proof.
  intros Hc E (Ci & Cm & _ & _ & Cs & _) Ha Hk Hh (HR1 & HR2). unfold run_opcode in E. rewrite Hc in E. unfold agree in Ha. rewrite Hc in Ha.
  destruct (g_pop false g) as [[i g1]| |] eqn:Ep; try discriminate. cbn [obind] in E. destruct (verify_item_name o i) as [[]| |] eqn:Ev; try discriminate. cbn [obind] in E. destruct (update_item_name o i) as [i'| |] eqn:Eu; try discriminate. cbn [obind] in E. injection E as <- <-.
  destruct (pop_spec _ _ _ _ Ep) as (_ & Ea & El & _). destruct (pop_own _ _ _ _ _ _ _ Ep (Ha (Behavior [TGeneric] [] None []) O eq_refl ltac:(cbn; lia)) Hk Hh) as (i0 & rest & Et & Hk1 & Hst). cbn in Et. rewrite Et in HR1. apply Forall2_cons_l in HR1. destruct HR1 as (r & mr & -> & Hr0 & HRr). pose proof (rel_stands _ _ _ Hst Hr0) as Hr.
  split; [now rewrite push_atoms|]. split; [now rewrite push_length|]. eexists. split; [apply push_own'; [exact Hk1|unfold holds_in in *; now rewrite with_stack_condition, Ea]|]. split; [now rewrite !with_stack_condition|]. right. eexists. split; [reflexivity|]. split; [reflexivity|]. cbn [em_op em_pushed em_alt_pushed].
  split; [intros [H|[H|H]]; discriminate|]. split; [split; [cbn; discriminate|]; eapply verify_declared; [reflexivity|exact Ev|exact Ci|exact Hr]|]. intros main' alt' Hs. apply inv_toalt in Hs; [|reflexivity]. destruct Hs as (x & Ex & ->). injection Ex as <- <-.
  erewrite out_names_rev by reflexivity. assert (Hn : os_outputs o <> Some ["__"]). { apply Cs. rewrite (by_name_ident _ _ Hc). cbn. auto. }
  destruct (update_rel o i i' r Eu Hn Cm Hr alt) as (-> & Hr'). split; [exact I|]. split; [now apply recorded_one|]. split; [destruct s; exact HRr|]. destruct s. cbn. constructor; assumption.
Qed.
Lemma fromalt_ok o g g' code k v s main alt :
  opcode_by_name (os_ident o) = Some OP_FROMALTSTACK -> run_opcode o g = Ok (g', code) -> clean (SOpcode o) -> agree o g ->
  nth_error (vs_states (g_vs g)) k = Some (v, s) -> holds_in (g_vs g) s -> Rs s main alt -> leaf_goal (SOpcode o) g g' code k v s main alt.
Proof.
  intros Hc E (Ci & Cm & _ & _ & Cs & _) Ha Hk Hh (HR1 & HR2). unfold run_opcode in E. rewrite Hc in E. unfold agree in Ha. rewrite Hc in Ha.
  destruct (g_pop true g) as [[i g1]| |] eqn:Ep; try discriminate. cbn [obind] in E. destruct (verify_item_name o i) as [[]| |] eqn:Ev; try discriminate. cbn [obind] in E. destruct (update_item_name o i) as [i'| |] eqn:Eu; try discriminate. cbn [obind] in E. injection E as <- <-.
  destruct (pop_spec _ _ _ _ Ep) as (_ & Ea & El & _). destruct (pop_own _ _ _ _ _ _ _ Ep Ha Hk Hh) as (i0 & rest & Et & Hk1 & Hst). cbn in Et. rewrite Et in HR2. apply Forall2_cons_l in HR2. destruct HR2 as (r & mr & -> & Hr0 & HRr). pose proof (rel_stands _ _ _ Hst Hr0) as Hr.
  split; [now rewrite push_atoms|]. split; [now rewrite push_length|]. eexists. split; [apply push_own'; [exact Hk1|unfold holds_in in *; now rewrite with_stack_condition, Ea]|]. split; [now rewrite !with_stack_condition|]. right. eexists. split; [reflexivity|]. split; [reflexivity|]. cbn [em_op em_pushed em_alt_pushed].
  split; [intros [H|[H|H]]; discriminate|]. split; [split; [cbn; discriminate|]; eapply verify_declared; [reflexivity|exact Ev|exact Ci|exact Hr]|]. intros main' alt' Hs. apply inv_fromalt in Hs; [|reflexivity]. destruct Hs as (x & Ex & ->). injection Ex as <- <-.
  erewrite out_names_rev by reflexivity. assert (Hn : os_outputs o <> Some ["__"]). { apply Cs. rewrite (by_name_ident _ _ Hc). cbn. auto. }
  destruct (update_rel o i i' r Eu Hn Cm Hr main) as (-> & Hr'). split; [now apply recorded_one|]. split; [exact I|]. split; [destruct s; cbn; constructor; assumption|]. destruct s. exact HRr.
Qed.
Lemma remove_nth_app {A} (above : list A) x below : remove_nth (length above) (above ++ x :: below) = above ++ below.
Proof. induction above as [|y above IH]; cbn; [reflexivity|]. now rewrite IH. Qed.
Lemma Forall2_remove {A B} (P : A -> B -> Prop) l l' : Forall2 P l l' -> forall d, Forall2 P (remove_nth d l) (remove_nth d l').
Proof. induction 1 as [|x y l l' Hx Hl IH]; intros d; [destruct d; constructor|]. destruct d; cbn; [exact Hl|]. constructor; auto. Qed.
Lemma pick_roll_ok c o g g' code k v s main alt : c = OP_PICK \/ c = OP_ROLL ->
  opcode_by_name (os_ident o) = Some c -> run_opcode o g = Ok (g', code) -> clean (SOpcode o) -> agree o g -> known_depth o g ->
  nth_error (vs_states (g_vs g)) k = Some (v, s) -> holds_in (g_vs g) s -> Rs s main alt -> leaf_goal (SOpcode o) g g' code k v s main alt.
Proof.
  intros Hpr Hc E (Ci & Cm & _ & _ & Cs & _) Ha Hkd Hk Hh (HR1 & HR2).
  assert (Hn : os_outputs o <> Some ["__"]). { apply Cs. rewrite (by_name_ident _ _ Hc). destruct Hpr; subst; cbn; auto. }
  assert (agree_at false 0 g /\ forall s i d, possible g s -> nth_error (st_stack s) 0 = Some i -> it_integer i = Some d -> agree_at false (S (Z.to_nat d)) g) as (Ha0 & Had). { unfold agree in Ha. rewrite Hc in Ha. destruct Hpr; subst; exact Ha. }
  assert (Hposs : possible g s) by (apply possible_nth; eauto).
  assert (Er : run_opcode o g = do (d, g1) <- g_pop false g; do _ <- verify_item_name o d; do depth <- match it_integer d with Some k => if k <? 0 then Err (EMsg 21) else Ok (Z.to_nat k) | None => Ok O end;
    do (i, vs) <- vs_pick_roll depth (opcode_eqb c OP_ROLL) (g_vs g1); do i' <- update_item_name o i; Ok (g_push false i' (Gen vs (g_n g1)), [Emitted (EmCode c) [name_tokens i'] [] (SOpcode o)])). { unfold run_opcode. rewrite Hc. destruct Hpr; subst; reflexivity. }
  rewrite Er in E. clear Er. destruct (g_pop false g) as [[d g1]| |] eqn:Ep; try discriminate. cbn [obind] in E. destruct (verify_item_name o d) as [[]| |] eqn:Ev; try discriminate. cbn [obind] in E.
  destruct (pop_spec _ _ _ _ Ep) as (_ & Ea & El & _). destruct (pop_own _ _ _ _ _ _ _ Ep Ha0 Hk Hh) as (d0 & rest & Et & Hk1 & Hst). cbn in Et.
  assert (Hint : exists z, it_integer d0 = Some z). { apply (Hkd ltac:(rewrite (by_name_ident _ _ Hc); destruct Hpr; subst; auto) s d0 Hposs). now rewrite Et. } destruct Hint as (z & Ez).
  assert (Ez' : it_integer d = Some z). { destruct Hst as ((_ & <-) & _). exact Ez. } rewrite Ez' in E. destruct (Z.ltb_spec z 0) as [|Hz]; [discriminate|]. cbn [obind] in E.
  destruct (vs_pick_roll (Z.to_nat z) (opcode_eqb c OP_ROLL) (g_vs g1)) as [[i vs]| |] eqn:Epr; try discriminate. cbn [obind] in E. destruct (update_item_name o i) as [i'| |] eqn:Eu; try discriminate. cbn [obind] in E. injection E as <- <-.
  rewrite Et in HR1. apply Forall2_cons_l in HR1. destruct HR1 as (rd & mr & -> & Hrd0 & HRr). pose proof (rel_stands _ _ _ Hst Hrd0) as Hrd.
  destruct (pick_spec _ _ _ _ _ Epr) as (Pa & Pl & (k2 & v2 & s2 & Hk2 & Hh2 & Hn2) & Pown). specialize (Pown k v _ Hk1). rewrite with_stack_condition, Ea in Pown. unfold holds_in in Hh. rewrite Hh in Pown. destruct Pown as (i0 & Hi0 & Hkp & Hal). cbn [with_stack st_stack] in Hi0.
  (* the picked item stands for the own one *)
  assert (Hst2 : stands_for i0 i).
  { split; [|exact Hal]. pose proof (pop_agree _ _ _ _ (Z.to_nat z) Ep (Had s d0 z Hposs ltac:(now rewrite Et) Ez)) as Hag. apply (Hag (with_stack s false rest) s2); [apply possible_nth; exists k, v; rewrite with_stack_condition, Ea; auto|apply possible_nth; exists k2, v2; auto|exact Hi0|exact Hn2]. }
  destruct (Forall2_nth _ _ _ _ _ HRr Hi0) as (r & Hr & Hrel0). pose proof (rel_stands _ _ _ Hst2 Hrel0) as Hrel.
  split; [rewrite push_atoms; cbn; congruence|]. split; [rewrite push_length; cbn; congruence|].
  eexists. split; [apply push_own'; [exact Hkp|unfold holds_in; cbn; rewrite Pa, Ea; destruct (opcode_eqb c OP_ROLL); rewrite ?with_stack_condition; exact Hh]|].
  split; [destruct (opcode_eqb c OP_ROLL); now rewrite !with_stack_condition|]. right. eexists. split; [reflexivity|]. split; [reflexivity|]. cbn [em_op em_pushed em_alt_pushed].
  assert (Hsn : script_num (r_value rd) = Z.of_nat (Z.to_nat z)). { destruct Hrd0 as (_ & H & _). rewrite (H z Ez). lia. }
  assert (Hlen : (Z.to_nat z < length mr)%nat). { apply nth_error_Some. rewrite Hr. discriminate. }
  split; [destruct Hpr; subst; intros [H|[H|H]]; discriminate|].
  split.
  - unfold good_op. cbn [em_op]. split.
    + unfold enough. destruct Hpr; subst; cbn [is_shuffle]; exists rd, mr, (Z.to_nat z); auto.
    + replace (opcode_eqb c OP_FROMALTSTACK) with false by (destruct Hpr; subst; reflexivity). eapply verify_declared; [reflexivity|exact Ev|exact Ci|exact Hrd].
  - intros main' alt' Hs. destruct Hpr; subst c; [apply inv_pick in Hs; [|reflexivity]|apply inv_roll in Hs; [|reflexivity]].
    + destruct Hs as (-> & x & rr & dd & y & Ex & Hdd & Hy & ->). injection Ex as <- <-. assert (dd = Z.to_nat z) by lia. subst dd. rewrite Hr in Hy. injection Hy as <-.
      erewrite out_names_rev by reflexivity. destruct (update_rel o i i' r Eu Hn Cm Hrel mr) as (-> & Hr'). split; [now apply recorded_one|]. split; [exact I|]. split; [|destruct s; exact HR2]. destruct s. cbn in *. constructor; assumption.
    + destruct Hs as (-> & x & above & y & below & Ex & Hdd & ->). injection Ex as <- ->. assert (Eab : Z.to_nat z = length above) by lia. rewrite Eab in *. rewrite nth_error_app2, Nat.sub_diag in Hr by lia. cbn in Hr. injection Hr as <-.
      erewrite out_names_rev by reflexivity. destruct (update_rel o i i' y Eu Hn Cm Hrel (above ++ below)) as (-> & Hr'). split; [now apply recorded_one|]. split; [exact I|]. split; [|destruct s; exact HR2]. destruct s. cbn in *. constructor; [exact Hr'|].
      rewrite <- (remove_nth_app above y below). now apply Forall2_remove.
Qed.
Lemma position_label x : made_up x = false -> forall l m, Forall2 rel l m -> position (fun i => String.eqb x (it_name i)) l = depth_of_label x m.
Proof.
  intros Hx. induction 1 as [|i r l m (Hr & _ & _) _ IH]; [reflexivity|]. cbn [position depth_of_label]. rewrite Hr. unfold label_of.
  destruct (String.eqb_spec x (it_name i)) as [->|Hne].
  - now rewrite Hx, String.eqb_refl.
  - destruct (made_up (it_name i)); [|replace (String.eqb x (it_name i)) with false by (symmetry; now apply String.eqb_neq)]; rewrite IH; destruct (depth_of_label x m); reflexivity.
Qed.
(** [depth_of], [depth_of_offset], [transmute] *)
Lemma function_ok o g g' code k v s main alt :
  opcode_by_name (os_ident o) = None -> run_opcode o g = Ok (g', code) -> clean (SOpcode o) ->
  nth_error (vs_states (g_vs g)) k = Some (v, s) -> holds_in (g_vs g) s -> Rs s main alt -> leaf_goal (SOpcode o) g g' code k v s main alt.
Proof.
  intros Hc E (Ci & Cm & _ & _ & _ & Cd & Co) Hk Hh (HR1 & HR2). unfold run_opcode in E. rewrite Hc in E. unfold run_opcode_function in E.
  assert (Hdof : forall ident offset r, run_depth_of o g ident offset = Ok (g', code) -> offset = 0 -> os_inputs o = Some (InIdent ident :: r) -> In (os_ident o) ["depth_of"; "depth_of_offset"] -> leaf_goal (SOpcode o) g g' code k v s main alt).
  { clear E. intros ident offset r E -> Hi Hid. unfold run_depth_of in E. destruct (vs_find ident (g_vs g)) as [depth| |] eqn:Ef; try discriminate. cbn [obind] in E.
    pose proof (find_own _ _ _ _ _ _ Ef Hk Hh) as Hpos. rewrite (position_label ident (Ci _ ident Hi (or_introl eq_refl)) _ _ HR1) in Hpos.
    specialize (Cd Hid). set (g1 := match os_outputs o with Some [n] => g | _ => Gen (g_vs g) (S (g_n g)) end).
    set (name := match os_outputs o with Some [n] => n | _ => id_name (g_n g) end).
    assert (E' : (do k0 <- integer_new (Z.of_nat depth); Ok (g_push false (Item name (match os_outputs o with None => true | _ => false end) (Some k0)) g1, [Emitted (EmNumber (k0 + 0)) [match os_outputs o with Some [n] => Some n | _ => None end] [] (SOpcode o)])) = Ok (g', code)).
    { rewrite <- E. unfold name, g1, make_ident. destruct (os_outputs o) as [[|n [|]]|]; reflexivity. }
    clear E. destruct (integer_new (Z.of_nat depth)) as [kk| |] eqn:Ei; try discriminate. cbn [obind] in E'. injection E' as <- <-. apply integer_new_inv in Ei. destruct Ei as (<- & _).
    assert (Eg1 : g_vs g1 = g_vs g) by (unfold g1; destruct (os_outputs o) as [[|n [|]]|]; reflexivity).
    split; [rewrite push_atoms; now rewrite Eg1|]. split; [rewrite push_length; now rewrite Eg1|]. eexists. split; [apply push_own'; rewrite Eg1; [exact Hk|exact Hh]|]. split; [apply with_stack_condition|]. right. eexists. split; [reflexivity|]. split; [reflexivity|].
    split; [intros [H|[H|H]]; discriminate|]. split; [exists o, ident, r, depth; cbn [em_op]; repeat split; auto; lia|]. intros main' alt' Hs. apply (inv_number _ (Z.of_nat depth + 0)) in Hs; [|reflexivity]. destruct Hs as (-> & w & Hw & ->). erewrite out_names_rev by reflexivity. cbn [em_pushed em_alt_pushed]. rewrite Z.add_0_r in Hw.
    destruct Cd as [Eo|(x & Eo & Hx)].
    - rewrite Eo. cbn [given rev]. rewrite relabel_nil. split; [cbn; split; [discriminate|exact I]|]. split; [exact I|]. split; [|destruct s; exact HR2]. destruct s. cbn. constructor; [|exact HR1]. unfold name. rewrite Eo. unfold rel, label_of. cbn [it_name it_generated it_integer r_label r_value]. rewrite made_up_id.
      split; [reflexivity|]. split; [intros d Hd; injection Hd as <-; exact Hw|discriminate].
    - rewrite Eo. cbn [given rev app relabel]. destruct (String.eqb_spec x "__"); [congruence|]. replace (relabel [] main) with main by (now rewrite relabel_nil). pose proof (Cm _ x Eo (or_introl eq_refl)) as Hmx. split; [cbn; split; [intros y Hy; exact Hy|exact I]|]. split; [exact I|]. split; [|destruct s; exact HR2]. destruct s. cbn. constructor; [|exact HR1].
      unfold name. rewrite Eo. unfold rel, label_of. cbn [it_name it_generated it_integer r_label r_value]. rewrite Hmx. split; [reflexivity|]. split; [intros d Hd; injection Hd as <-; exact Hw|reflexivity]. }
  destruct (String.eqb_spec (os_ident o) "depth_of") as [Ed|Nd].
  { destruct (os_inputs o) as [[|[ident|] [|]]|] eqn:Ei; try discriminate E. apply (Hdof ident 0 []); auto. rewrite Ed. now left. }
  destruct (String.eqb_spec (os_ident o) "depth_of_offset") as [Ed|Ndo].
  { destruct (os_inputs o) as [[|[ident|] [|[|t z] [|]]]|] eqn:Ei; try discriminate E. apply (Hdof ident z [InExpr t z]); auto; [|rewrite Ed; right; now left]. apply (Co Ed _ t z eq_refl). right. now left. }
  destruct (String.eqb_spec (os_ident o) "transmute") as [Et|]; [|discriminate E].
  assert (g' = g /\ code = []) as (-> & ->).
  { destruct (os_inputs o) as [[|[ident|] [|? [|]]]|]; try discriminate E. destruct (os_outputs o) as [[|out [|]]|]; repeat match type of E with
      | (if ?b then _ else _) = _ => destruct b; [|discriminate E]
      | obind ?x _ = _ => destruct x; try discriminate E; cbn [obind] in E end; injection E as <- <-; auto. }
  split; [reflexivity|]. split; [reflexivity|]. exists s. split; [exact Hk|]. split; [reflexivity|]. left. auto.
Qed.

Lemma opcode_ok o g g' code k v s main alt :
  run_opcode o g = Ok (g', code) -> ~ is_bracket o -> clean (SOpcode o) -> agree o g -> known_depth o g ->
  nth_error (vs_states (g_vs g)) k = Some (v, s) -> holds_in (g_vs g) s -> Rs s main alt -> leaf_goal (SOpcode o) g g' code k v s main alt.
Proof.
  intros E Hb Hcl Ha Hkd Hk Hh HR. destruct (opcode_by_name (os_ident o)) as [c|] eqn:Hc; [|now apply function_ok].
  assert (Hname := by_name_ident _ _ Hc). unfold is_bracket, is_if in Hb. rewrite Hname in Hb.
  assert (c <> OP_IF /\ c <> OP_ELSE /\ c <> OP_ENDIF) as (N1 & N2 & N3). { split; [|split]; intros ->; apply Hb; cbn; auto. }
  destruct (opcode_eqb c OP_TOALTSTACK) eqn:E1. { apply Z.eqb_eq in E1. apply opcode_u8_inj in E1. subst c. now apply toalt_ok. }
  destruct (opcode_eqb c OP_FROMALTSTACK) eqn:E2. { apply Z.eqb_eq in E2. apply opcode_u8_inj in E2. subst c. now apply fromalt_ok. }
  destruct (opcode_eqb c OP_PICK) eqn:E3. { apply Z.eqb_eq in E3. apply opcode_u8_inj in E3. subst c. apply (pick_roll_ok OP_PICK); auto. }
  destruct (opcode_eqb c OP_ROLL) eqn:E4. { apply Z.eqb_eq in E4. apply opcode_u8_inj in E4. subst c. apply (pick_roll_ok OP_ROLL); auto. }
  assert (c <> OP_TOALTSTACK /\ c <> OP_FROMALTSTACK /\ c <> OP_PICK /\ c <> OP_ROLL) as (N4 & N5 & N6 & N7) by (repeat split; intros ->; discriminate).
  apply (other_ok c); auto.
  - unfold run_opcode in E. rewrite Hc in E. destruct c; congruence || exact E.
  - unfold agree in Ha. rewrite Hc in Ha. destruct c; congruence || exact Ha.
Qed.
Lemma push_ok e n g g' code k v s main alt : run_stmt (SPush e n) g = Ok (g', code) -> clean (SPush e n) ->
  nth_error (vs_states (g_vs g)) k = Some (v, s) -> holds_in (g_vs g) s -> Rs s main alt -> leaf_goal (SPush e n) g g' code k v s main alt.
Proof.
  intros E Hcl Hk Hh (HR1 & HR2). cbn [run_stmt] in E. unfold run_push in E. cbn [clean] in Hcl.
  destruct n as [n|]; cbn [make_ident] in E; injection E as <- <-.
  - split; [now rewrite push_atoms|]. split; [now rewrite push_length|]. eexists. split; [apply push_own'; [exact Hk|exact Hh]|]. split; [apply with_stack_condition|]. right. eexists. split; [reflexivity|]. split; [reflexivity|].
    split; [intros [H|[H|H]]; discriminate|]. split; [exact I|]. intros main' alt' Hs. apply (inv_push _ e) in Hs; [|reflexivity]. destruct Hs as (-> & w & ->). cbn [em_src em_pushed em_alt_pushed]. destruct (Hcl n eq_refl) as (Hm & _). split; [cbn; split; [intros y Hy; exact Hy|exact I]|]. split; [exact I|].
    destruct s. cbn in *. split; [|exact HR2]. constructor; [now apply rel_named|exact HR1].
  - split; [now rewrite push_atoms|]. split; [now rewrite push_length|]. eexists. split; [apply push_own'; [exact Hk|exact Hh]|]. split; [apply with_stack_condition|]. right. eexists. split; [reflexivity|]. split; [reflexivity|].
    split; [intros [H|[H|H]]; discriminate|]. split; [exact I|]. intros main' alt' Hs. apply (inv_push _ e) in Hs; [|reflexivity]. destruct Hs as (-> & w & ->). cbn [em_src em_pushed em_alt_pushed]. split; [cbn; split; [discriminate|exact I]|]. split; [exact I|].
    destruct s. cbn in *. split; [|exact HR2]. constructor; [apply rel_fresh|exact HR1].
Qed.
