(** Lemmas for C39: one opcode, on the labelled machine. *)
From Verif Require Import Base BaseLemmas Spec_Encoding Model_Integer Model_ByteArray Model_Opcode Model_Script Model_Behavior Model_Macro Spec_Macro Proofs_Integer Proofs_Script Proofs_Macro Proofs_Macro2.
Local Open Scope string_scope.
Local Open Scope list_scope.
Local Open Scope Z_scope.

(** A tracked item and the machine's item. *)
Definition rel (i : item) (r : ritem) : Prop :=
  r_label r = label_of i /\ (forall d, it_integer i = Some d -> script_num (r_value r) = d) /\ (it_generated i = false -> label_of i = Some (it_name i)).
Lemma rel_stands i0 i r : stands_for i0 i -> rel i0 r -> rel i r.
Proof.
  intros ((E1 & E2) & (E3 & E4)) (H1 & H2 & H3). split; [congruence|]. split; [intros d Hd; apply H2; congruence|]. intros F. rewrite <- E1, <- E4 by congruence. apply H3. congruence.
Qed.
Lemma rels_stand l0 l r : Forall2 stands_for l0 l -> Forall2 rel l0 r -> Forall2 rel l r.
Proof. intros H. revert r. induction H as [|i0 i l0 l Hi _ IH]; intros r Hr; inversion Hr; subst; constructor; auto. eapply rel_stands; eassumption. Qed.
Lemma rel_same i0 i r : same_item i0 i -> (it_generated i = false -> label_of i = Some (it_name i)) -> rel i0 r -> rel i r.
Proof. intros (E1 & E2) H (H1 & H2 & H3). split; [congruence|]. split; [intros d Hd; apply H2; congruence|exact H]. Qed.
Lemma rel_named n v : made_up n = false -> rel (Item n false None) (RItem (Some n) v).
Proof. intros H. unfold rel, label_of. cbn [it_name it_integer it_generated r_label r_value]. rewrite H. split; [reflexivity|]. split; [discriminate|reflexivity]. Qed.
Lemma made_up_id n : made_up (id_name n) = true.
Proof. unfold made_up, id_name. generalize (DecimalString.NilEmpty.string_of_uint (Nat.to_uint n)). intros [|a x]; reflexivity. Qed.
Lemma rel_fresh n v : rel (Item (id_name n) true None) (RItem None v).
Proof. unfold rel, label_of. cbn [it_name]. rewrite made_up_id. split; [reflexivity|]. split; [discriminate|discriminate]. Qed.
Lemma rel_token i r x : rel i r -> name_tokens i = Some x -> r_label r = Some x.
Proof. intros (H1 & _ & H3) E. unfold name_tokens in E. destruct (it_generated i); [discriminate|]. injection E as <-. rewrite H1. now apply H3. Qed.

(** Names of the outputs. *)
Lemma relabel_nil s : relabel [] s = s. Proof. destruct s; reflexivity. Qed.
Lemma relabel_app names : forall top r, (length names <= length top)%nat -> relabel names (top ++ r) = relabel names top ++ r.
Proof. induction names as [|n names IH]; intros top r H; [now rewrite !relabel_nil|]. destruct top as [|i top]; cbn [length] in H; [lia|]. cbn [app relabel]. f_equal. apply IH. lia. Qed.
Lemma relabel_snoc names : forall top n i, length names = length top -> relabel (names ++ [n]) (top ++ [i]) = relabel names top ++ relabel [n] [i].
Proof. induction names as [|m names IH]; intros [|j top] n i H; cbn in *; try lia; try reflexivity. f_equal. rewrite IH by lia. reflexivity. Qed.
Lemma relabel_rev names : forall top, length names = length top -> relabel (rev names) (rev top) = rev (relabel names top).
Proof.
  induction names as [|n names IH]; intros [|i top] H; cbn [length] in H; try lia; [reflexivity|]. cbn [rev relabel]. rewrite relabel_snoc by (rewrite !rev_length; lia). rewrite IH by lia. reflexivity.
Qed.
Definition given (o : option (list string)) : list string := match o with Some l => l | None => [] end.
Lemma recorded_rel pushed top r : Forall2 rel pushed top -> recorded (map name_tokens pushed) (top ++ r).
Proof. induction 1 as [|i t pushed top Hi _ IH]; cbn [map recorded app]; [exact I|]. split; [|exact IH]. intros x Hx. eapply rel_token; eassumption. Qed.

Lemma Forall2_length {A B} (P : A -> B -> Prop) l l' : Forall2 P l l' -> length l = length l'.
Proof. induction 1; cbn; congruence. Qed.
Lemma Forall2_rev {A B} (P : A -> B -> Prop) l l' : Forall2 P l l' -> Forall2 P (rev l) (rev l').
Proof. induction 1; cbn [rev]; [constructor|]. apply Forall2_app; [assumption|]. constructor; [assumption|constructor]. Qed.
Lemma Forall2_nth {A B} (P : A -> B -> Prop) l l' k x : Forall2 P l l' -> nth_error l k = Some x -> exists y, nth_error l' k = Some y /\ P x y.
Proof. intros H. revert k. induction H as [|a b l l' Hab _ IH]; intros [|k] Hk; cbn in Hk; try discriminate; [injection Hk as <-; exists b; split; [reflexivity|assumption]|]. now apply IH. Qed.
Lemma Forall2_nth_r {A B} (P : A -> B -> Prop) l l' k y : Forall2 P l l' -> nth_error l' k = Some y -> exists x, nth_error l k = Some x /\ P x y.
Proof. intros H. revert k. induction H as [|a b l l' Hab _ IH]; intros [|k] Hk; cbn in Hk; try discriminate; [injection Hk as <-; exists a; split; [reflexivity|assumption]|]. now apply IH. Qed.

(** *** Outputs *)
Definition same_but_n (g g' : gen) : Prop := g_vs g' = g_vs g.
Lemma named_spec c order ins : forall names idx g pushed g', named_outputs c order ins idx names g = Ok (pushed, g') ->
  g_vs g' = g_vs g /\ length pushed = length names /\
  forall j n, nth_error names j = Some n ->
    if String.eqb n "__" then
      if opcode_retains_input c then nth_error pushed j = nth_error ins 0 /\ nth_error ins 0 <> None
      else exists ord kk, order = Some ord /\ nth_error ord (idx + j) = Some kk /\ nth_error pushed j = nth_error ins kk /\ nth_error ins kk <> None
    else nth_error pushed j = Some (Item n false None).
Proof.
  induction names as [|name names IH]; intros idx g pushed g' E; cbn [named_outputs] in E.
  - injection E as <- <-. repeat (split; [reflexivity|]). intros [|j] n; discriminate.
  - cbn [make_ident] in E. match type of E with obind ?x _ = _ => destruct x as [i| |] eqn:Ei; try discriminate end. cbn [obind] in E.
    match type of E with obind ?x _ = _ => destruct x as [[is g2]| |] eqn:Er; try discriminate end. cbn [obind] in E. injection E as <- <-.
    destruct (IH _ _ _ _ Er) as (H1 & H2 & H3). split; [exact H1|]. split; [cbn; now rewrite H2|]. intros [|j] n Hj; cbn [nth_error] in Hj.
    + injection Hj as <-. destruct (String.eqb name "__"); [|injection Ei as <-; reflexivity]. destruct (opcode_retains_input c).
      * unfold index_item in Ei. destruct (nth_error ins 0) as [x|]; [|discriminate]. injection Ei as <-. split; [reflexivity|discriminate].
      * destruct order as [ord|]; [|discriminate]. destruct (nth_error ord idx) as [kk|] eqn:Ek; [|discriminate]. unfold index_item in Ei. destruct (nth_error ins kk) as [x|] eqn:Ex; [|discriminate]. injection Ei as <-.
        exists ord, kk. rewrite Nat.add_0_r, Ex. cbn [nth_error]. repeat split; auto; discriminate.
    + specialize (H3 j n Hj). replace (idx + S j)%nat with (S idx + j)%nat by lia. exact H3.
Qed.
Lemma ordered_spec ins : forall order g pushed g', ordered_outputs ins order g = Ok (pushed, g') ->
  g_vs g' = g_vs g /\ Forall2 (fun k i => nth_error ins k = Some i) order pushed.
Proof.
  induction order as [|k order IH]; intros g pushed g' E; cbn [ordered_outputs] in E; [injection E as <- <-; split; [reflexivity|constructor]|].
  unfold index_item in E. destruct (nth_error ins k) as [i|] eqn:Ei; [|discriminate]. cbn [obind make_ident] in E. match type of E with obind ?x _ = _ => destruct x as [[is g2]| |] eqn:Er; try discriminate end. cbn [obind] in E. injection E as <- <-.
  destruct (IH _ _ _ Er) as (H1 & H2). split; [exact H1|]. now constructor.
Qed.
Lemma fresh_spec c ins : forall n g pushed g', fresh_outputs c ins n g = Ok (pushed, g') ->
  g_vs g' = g_vs g /\ length pushed = n /\ Forall (fun i => if opcode_retains_input c then nth_error ins 0 = Some i else exists k, i = Item (id_name k) true None) pushed.
Proof.
  induction n as [|n IH]; intros g pushed g' E; cbn [fresh_outputs] in E; [injection E as <- <-; auto|].
  cbn [make_ident] in E. match type of E with obind ?x _ = _ => destruct x as [i| |] eqn:Ei; try discriminate end. cbn [obind] in E. match type of E with obind ?x _ = _ => destruct x as [[is g2]| |] eqn:Er; try discriminate end. cbn [obind] in E. injection E as <- <-.
  destruct (IH _ _ _ Er) as (H1 & H2 & H3). split; [exact H1|]. split; [cbn; now rewrite H2|]. constructor; [|exact H3].
  destruct (opcode_retains_input c); [unfold index_item in Ei; destruct (nth_error ins 0); [injection Ei as <-; reflexivity|discriminate]|]. injection Ei as <-. eauto.
Qed.

(** *** The behaviour table and the machine *)
Lemma shuffle_table c : is_shuffle c = true -> exists b ord, opcode_behavior c = Ok b /\ b_output_order b = Some ord /\ length ord = length (b_output_types b) /\ opcode_retains_input c = false /\
  (forall k, In k ord -> (k < length (b_input_types b))%nat) /\
  forall (A : Type) (ins r : list A), length ins = length (b_input_types b) -> exists picked, Forall2 (fun k x => nth_error ins k = Some x) ord picked /\ shuffle c (rev ins ++ r) = Some (rev picked ++ r).
Proof.
  intros H. destruct c; try discriminate H; clear H; eexists; eexists; (split; [reflexivity|]); (split; [reflexivity|]); (split; [reflexivity|]); (split; [reflexivity|]); (split; [cbn; intros k Hk; lia|]);
    intros A ins r HL; cbn [b_input_types length] in HL;
    repeat (match type of HL with context [length ?l] => destruct l as [|? l]; cbn [length] in HL; try lia end); cbn [rev app shuffle].
  all: eexists; split; [repeat (constructor; [reflexivity|]); constructor|reflexivity].
Qed.
Lemma arity_table c n m : arity c = Some (n, m) -> exists b, opcode_behavior c = Ok b /\ length (b_input_types b) = n /\ length (b_output_types b) = m /\ opcode_retains_input c = false /\
  is_shuffle c = false /\ (b_output_order b = None \/ (n = 0%nat /\ b_output_order b = Some [0%nat])).
Proof. intros H. destruct c; try discriminate H; injection H as <- <-; eexists; repeat split; auto. Qed.
Definition special (c : opcode) : Prop :=
  c = OP_SIZE \/ c = OP_CHECKLOCKTIMEVERIFY \/ c = OP_CHECKSEQUENCEVERIFY \/ c = OP_IF \/ c = OP_ELSE \/ c = OP_ENDIF \/ c = OP_TOALTSTACK \/ c = OP_FROMALTSTACK \/ c = OP_PICK \/ c = OP_ROLL.
Lemma func_classes c : func_exists c = true -> is_shuffle c = true \/ (exists n m, arity c = Some (n, m)) \/ special c.
Proof. unfold special. intros H. destruct c; try discriminate H; try (left; reflexivity); try (right; left; eexists; eexists; reflexivity); right; right; tauto. Qed.
Lemma not_both c : is_shuffle c = true -> arity c = None.
Proof. destruct c; try discriminate; reflexivity. Qed.

(** Names declared for the inputs. *)
Lemma check_declared : forall (names : list opcode_input) items used, check_inputs items names = Ok tt -> length items = length names -> Forall2 rel items used ->
  Forall2 (fun n i => forall x, n = InIdent x -> x <> "__" -> r_label i = Some x) names used.
Proof.
  induction names as [|n names IH]; intros [|i items] used E HL HF; cbn [length] in HL; try lia; inversion HF as [|? r0 ? used' Hr HF']; subst; [constructor|]. cbn [check_inputs] in E.
  assert (check_inputs items names = Ok tt /\ forall x, n = InIdent x -> x <> "__" -> r_label r0 = Some x) as (E' & Hn).
  { destruct n as [ident|t z]; [|split; [exact E|discriminate]]. destruct (String.eqb_spec ident "__") as [->|Hne]; [split; [exact E|]; intros x Hx; injection Hx as <-; congruence|].
    destruct (it_generated i) eqn:Eg; [discriminate|]. destruct (String.eqb_spec ident (it_name i)) as [->|]; [|discriminate]. split; [exact E|]. intros x Hx _. injection Hx as <-. destruct Hr as (H1 & _ & H3). rewrite H1. auto. }
  constructor; [exact Hn|]. apply (IH items); auto.
Qed.
Lemma declared_rev names used r : Forall2 (fun n i => forall x, n = InIdent x -> x <> "__" -> r_label i = Some x) names used -> declared (rev names) (rev used ++ r).
Proof.
  intros H. apply Forall2_rev in H. revert H. generalize (rev names) (rev used). induction 1 as [|n i l l' Hn _ IH]; cbn [declared app]; [exact I|]. split; auto.
Qed.

(** *** Unpacking an ordinary opcode *)
Definition Rs (s : state) (main alt : list ritem) : Prop := Forall2 rel (st_stack s) main /\ Forall2 rel (st_alt s) alt.
Definition made_outputs (c : opcode) (o : opcode_stmt) (b : behavior) (ins : list item) (g1 : gen) : outcome (list item * gen) :=
  match os_outputs o with
  | Some names => if Nat.eqb (length names) (length (b_output_types b)) then named_outputs c (b_output_order b) ins 0 names g1 else Err (EMsg 15)
  | None => match b_output_order b with Some order => ordered_outputs ins order g1 | None => fresh_outputs c ins (length (b_output_types b)) g1 end
  end.
Lemma outputs_vs c o b ins g1 pushed g2 : made_outputs c o b ins g1 = Ok (pushed, g2) -> g_vs g2 = g_vs g1.
Proof.
  unfold made_outputs. destruct (os_outputs o) as [names|].
  - destruct (Nat.eqb _ _); [|discriminate]. intros E. now apply named_spec in E.
  - destruct (b_output_order b); intros E; [now apply ordered_spec in E|now apply fresh_spec in E].
Qed.
Definition in_list (o : opcode_stmt) : list opcode_input := match os_inputs o with Some l => l | None => [] end.
Lemma other_core c o g g' code k v s main alt :
  run_other_opcode c o g = Ok (g', code) -> (forall b j, opcode_behavior c = Ok b -> (j < length (b_input_types b))%nat -> agree_at false j g) ->
  nth_error (vs_states (g_vs g)) k = Some (v, s) -> holds_in (g_vs g) s -> Rs s main alt ->
  vs_atoms (g_vs g') = vs_atoms (g_vs g) /\ length (vs_states (g_vs g')) = length (vs_states (g_vs g)) /\
  exists b ins pushed used rest r0 g1 g2,
    opcode_behavior c = Ok b /\ length ins = length (b_input_types b) /\ length used = length ins /\ main = rev used ++ r0 /\ Forall2 rel ins used /\ Forall2 rel rest r0 /\
    made_outputs c o b ins g1 = Ok (pushed, g2) /\ func_exists c = true /\
    Forall2 (fun n i => forall x, n = InIdent x -> x <> "__" -> r_label i = Some x) (in_list o) (firstn (length (in_list o)) used) /\
    (os_inputs o <> None -> length (in_list o) = length used) /\
    code = [Emitted (EmCode c) (map name_tokens pushed) [] (SOpcode o)] /\
    nth_error (vs_states (g_vs g')) k = Some (v, with_stack s false (rev pushed ++ rest)).
Proof.
  intros E Ha Hk Hh (HR1 & HR2). unfold run_other_opcode in E. destruct (opcode_behavior c) as [b| |] eqn:Eb; try discriminate. cbn [obind] in E.
  destruct (pop_n (length (b_input_types b)) g []) as [[ins g1]| |] eqn:Ep; try discriminate. cbn [obind] in E.
  match type of E with obind ?x _ = _ => destruct x as [u| |] eqn:Ei; try discriminate end. destruct u. cbn [obind] in E.
  fold (made_outputs c o b ins g1) in E. destruct (made_outputs c o b ins g1) as [[pushed g2]| |] eqn:Eo; try discriminate. cbn [obind] in E.
  destruct (func_exists c) eqn:Ef; [|discriminate]. injection E as <- <-.
  destruct (pop_n_own _ _ _ _ _ Ep (fun j Hj => Ha b j eq_refl Hj)) as (A & B & C & new & Enew & Hl & Hown). rewrite app_nil_r in Enew. subst ins.
  destruct (Hown k v s Hk Hh) as (own & rest & Es & HF & Hk1). rewrite Es in HR1. apply Forall2_app_inv_l in HR1. destruct HR1 as (ut & r0 & Hu & Hr & ->).
  pose proof (outputs_vs _ _ _ _ _ _ _ Eo) as Ev. destruct (pushes_own pushed g2 k v (with_stack s false rest)) as (P1 & P2 & P3 & P4). { now rewrite Ev. } { unfold holds_in in *. rewrite Ev, B, with_stack_condition. exact Hh. }
  rewrite P2, P3, Ev. split; [exact B|]. split; [exact C|].
  assert (Hu' : Forall2 rel new ut) by (eapply rels_stand; eassumption).
  assert (Hlen : length ut = length new) by (symmetry; eapply Forall2_length; eassumption).
  exists b, (rev new), pushed, (rev ut), rest, r0, g1, g2. split; [reflexivity|]. split; [rewrite rev_length; lia|]. split; [rewrite !rev_length; lia|]. split; [now rewrite rev_involutive|]. split; [now apply Forall2_rev|]. split; [exact Hr|]. split; [exact Eo|]. split; [reflexivity|].
  assert (Hdecl : Forall2 (fun n i => forall x, n = InIdent x -> x <> "__" -> r_label i = Some x) (in_list o) (firstn (length (in_list o)) (rev ut)) /\ (os_inputs o <> None -> length (in_list o) = length (rev ut))).
  { unfold in_list. destruct (os_inputs o) as [names|]; [|cbn; split; [constructor|congruence]]. destruct (Nat.eqb_spec (length (rev new)) (length names)) as [El|]; [|discriminate].
    rewrite rev_length in El. split; [|rewrite rev_length; intros _; lia]. rewrite firstn_all2 by (rewrite rev_length; lia). eapply check_declared; [exact Ei|rewrite rev_length; lia|now apply Forall2_rev]. }
  split; [apply Hdecl|]. split; [apply Hdecl|]. split; [reflexivity|]. rewrite P4. destruct s; reflexivity.
Qed.

Lemma declared_in o e used r0 : em_src e = SOpcode o -> Forall2 (fun n i => forall x, n = InIdent x -> x <> "__" -> r_label i = Some x) (in_list o) (firstn (length (in_list o)) used) ->
  (os_inputs o <> None -> length (in_list o) = length used) -> declared (in_names e) (rev used ++ r0).
Proof.
  intros Es H Hl. unfold in_names. rewrite Es. unfold in_list in *. destruct (os_inputs o) as [l|]; [|exact I]. specialize (Hl ltac:(discriminate)). rewrite firstn_all2 in H by lia. now apply declared_rev.
Qed.
Lemma out_names_rev e o : em_src e = SOpcode o -> out_names e = rev (given (os_outputs o)).
Proof. intros H. unfold out_names. rewrite H. destruct (os_outputs o); reflexivity. Qed.

(** Relating the pushed items to the machine's. *)
Lemma named_rel c order ins names g1 pushed g2 base :
  named_outputs c order ins 0 names g1 = Ok (pushed, g2) -> (forall x, In x names -> made_up x = false) -> length base = length names ->
  (forall j r, nth_error base j = Some r -> nth_error names j = Some "__" -> forall i, nth_error pushed j = Some i -> rel i r) ->
  Forall2 rel pushed (relabel names base).
Proof.
  intros E Hm Hl Hb. destruct (named_spec _ _ _ _ _ _ _ _ E) as (_ & Hp & Hj). clear E.
  assert (Hj' : forall j n, nth_error names j = Some n -> n <> "__" -> nth_error pushed j = Some (Item n false None)).
  { intros j n Hn Hne. specialize (Hj j n Hn). destruct (String.eqb_spec n "__"); [congruence|exact Hj]. }
  clear Hj. revert base pushed Hl Hp Hb Hj'. induction names as [|n names IH]; intros base pushed Hl Hp Hb Hj.
  - destruct base; [|cbn in Hl; lia]. destruct pushed; [constructor|cbn in Hp; lia].
  - destruct base as [|r base]; [cbn in Hl; lia|]. destruct pushed as [|i pushed]; [cbn in Hp; lia|]. cbn [relabel]. constructor.
    + destruct (String.eqb_spec n "__") as [->|Hne]; [now apply (Hb O r)|]. specialize (Hj O n eq_refl Hne). injection Hj as ->. apply rel_named. apply Hm. now left.
    + apply IH; [intros x Hx; apply Hm; now right|cbn in Hl; lia|cbn in Hp; lia|intros j; apply (Hb (S j))|intros j; apply (Hj (S j))].
Qed.
Lemma picked_rel ins used ord picked_i picked_r : Forall2 rel ins used -> Forall2 (fun k x => nth_error ins k = Some x) ord picked_i -> Forall2 (fun k x => nth_error used k = Some x) ord picked_r -> Forall2 rel picked_i picked_r.
Proof.
  intros HF H. revert picked_r. induction H as [|k i ord pi Hk _ IH]; intros pr Hr; inversion Hr as [|? r ? pr' Hr1 Hr2]; subst; constructor; [|now apply IH].
  destruct (Forall2_nth _ _ _ _ _ HF Hk) as (r' & Hr' & Hrel). congruence.
Qed.
Lemma Forall2_nth2 {A B} (P : A -> B -> Prop) l l' k x y : Forall2 P l l' -> nth_error l k = Some x -> nth_error l' k = Some y -> P x y.
Proof. intros H Hx Hy. destruct (Forall2_nth _ _ _ _ _ H Hx) as (y' & Hy' & Hp). congruence. Qed.
Lemma outputs_shuffle c o b ord ins used picked g1 pushed g2 :
  made_outputs c o b ins g1 = Ok (pushed, g2) -> b_output_order b = Some ord -> length ord = length (b_output_types b) -> opcode_retains_input c = false ->
  (forall l x, os_outputs o = Some l -> In x l -> made_up x = false) ->
  Forall2 rel ins used -> Forall2 (fun k x => nth_error used k = Some x) ord picked ->
  (length (given (os_outputs o)) = length picked \/ given (os_outputs o) = []) /\ Forall2 rel pushed (relabel (given (os_outputs o)) picked).
Proof.
  intros E Eord Hlen Hret Hm HF HP. pose proof (Forall2_length _ _ _ HP) as HPl. unfold made_outputs in E. rewrite Eord in E. destruct (os_outputs o) as [names|]; cbn [given].
  - destruct (Nat.eqb_spec (length names) (length (b_output_types b))) as [El|]; [|discriminate]. split; [left; lia|].
    apply (named_rel _ _ _ _ _ _ _ picked E); [intros x Hx; apply (Hm names x eq_refl Hx)|lia|]. intros j r Hr Hn i Hi. destruct (named_spec _ _ _ _ _ _ _ _ E) as (_ & _ & Hj). specialize (Hj j "__" Hn). cbn [String.eqb Ascii.eqb Bool.eqb] in Hj. rewrite Hret in Hj.
    destruct Hj as (ord' & kk & Eo' & Hkk & Hpk & _). injection Eo' as <-. cbn [Nat.add] in Hkk. destruct (Forall2_nth_r _ _ _ _ _ HP Hr) as (kk' & Hkk' & Hu). rewrite Hkk' in Hkk. injection Hkk as ->. rewrite Hpk in Hi. exact (Forall2_nth2 _ _ _ _ _ _ HF Hi Hu).
  - split; [now right|]. rewrite relabel_nil. destruct (ordered_spec _ _ _ _ _ E) as (_ & Ho). eapply picked_rel; eassumption.
Qed.
Lemma outputs_compute c o b ins mb g1 pushed g2 :
  made_outputs c o b ins g1 = Ok (pushed, g2) -> opcode_retains_input c = false -> (b_output_order b = None \/ (length ins = 0%nat /\ b_output_order b = Some [0%nat])) ->
  (forall l x, os_outputs o = Some l -> In x l -> made_up x = false) ->
  length mb = length (b_output_types b) -> Forall (fun i => r_label i = None) mb ->
  (length (given (os_outputs o)) = length mb \/ given (os_outputs o) = []) /\ Forall2 rel pushed (relabel (given (os_outputs o)) mb).
Proof.
  intros E Hret Hord Hm Hl HN. unfold made_outputs in E. destruct (os_outputs o) as [names|]; cbn [given].
  - destruct (Nat.eqb_spec (length names) (length (b_output_types b))) as [El|]; [|discriminate]. split; [left; lia|].
    apply (named_rel _ _ _ _ _ _ _ mb E); [intros x Hx; apply (Hm names x eq_refl Hx)|lia|]. intros j r Hr Hn i Hi. destruct (named_spec _ _ _ _ _ _ _ _ E) as (_ & _ & Hj). specialize (Hj j "__" Hn). cbn [String.eqb Ascii.eqb Bool.eqb] in Hj. rewrite Hret in Hj.
    destruct Hj as (ord' & kk & Eo' & Hkk & Hpk & Hne). destruct Hord as [Ho|(Hi0 & Ho)]; [congruence|]. destruct ins; [|discriminate]. destruct kk; cbn in Hne; congruence.
  - split; [now right|]. rewrite relabel_nil. destruct Hord as [Ho|(Hi0 & Ho)]; rewrite Ho in E.
    + destruct (fresh_spec _ _ _ _ _ _ E) as (_ & Hpl & HP). rewrite Hret in HP. clear E. rewrite <- Hpl in Hl. clear Hpl. revert pushed Hl HP. induction HN as [|r mb Hr _ IH]; intros [|i pushed] Hl HP; cbn in Hl; try lia; constructor.
      * inversion HP as [|? ? (k & ->) ?]; subst. destruct r as [lab v]. cbn in Hr. subst. apply rel_fresh.
      * apply IH; [lia|]. now inversion HP.
    + destruct ins; [|discriminate]. cbn in E. discriminate.
Qed.
Lemma relabel_top names top r : (length names = length top \/ names = []) -> relabel (rev names) (rev top ++ r) = rev (relabel names top) ++ r.
Proof. intros [H| ->]; [|cbn [rev]; now rewrite !relabel_nil]. rewrite relabel_app by (rewrite !rev_length; lia). now rewrite relabel_rev. Qed.
