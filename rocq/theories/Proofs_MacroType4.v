(** Lemmas for C57: the types and values of the outputs of an opcode. *)
From Verif Require Import Base BaseLemmas Spec_Encoding Model_Integer Model_ByteArray Model_Opcode Model_Script Model_Behavior Model_Macro Spec_Script Spec_Macro Proofs_Integer Proofs_Script Proofs_Macro Proofs_Macro2 Proofs_Macro3 Proofs_Macro4 Proofs_Macro5
  Spec_Network Proofs_Network2 Spec_Behavior Proofs_Behavior Spec_MacroRun Proofs_MacroRun Model_Mock Model_MacroType Spec_MacroType Proofs_MacroType Proofs_MacroType2 Proofs_MacroType3.
Local Open Scope string_scope.
Local Open Scope list_scope.
Local Open Scope Z_scope.

(** ** Where the value of an output comes from *)
Definition source (c : opcode) (o : opcode_stmt) (order : option (list nat)) (ins : list titem) (j : nat) (p : titem) : Prop :=
  it_integer (t_item p) = None \/
  exists i, t_item p = t_item i /\
    ((opcode_retains_input c = true /\ nth_error ins 0 = Some i /\ (os_outputs o = None \/ exists l, os_outputs o = Some l /\ nth_error l j = Some "__")) \/
     exists ord n, order = Some ord /\ nth_error ord j = Some n /\ nth_error ins n = Some i).
Lemma tindex_ok ins k j : tindex_item ins k = Ok j -> nth_error ins k = Some j.
Proof. unfold tindex_item. destruct (nth_error ins k); [|discriminate]. intros H. now injection H as <-. Qed.
Lemma tnamed_source c o order ins names : forall pre g pushed g', os_outputs o = Some (pre ++ names) -> tnamed_outputs c order ins (length pre) names g = Ok (pushed, g') ->
  forall j p, nth_error pushed j = Some p -> source c o order ins (length pre + j) p.
Proof.
  induction names as [|name names IH]; intros pre g pushed g' O E j p Hj; cbn [tnamed_outputs tmake_ident] in E; [injection E as <- <-; destruct j; discriminate|].
  match type of E with obind ?x _ = _ => destruct x as [i| |] eqn:Ei; try discriminate end. cbn [obind] in E. match type of E with obind ?x _ = _ => destruct x as [[is g2]| |] eqn:Er; try discriminate end. cbn [obind] in E. injection E as <- <-.
  destruct j as [|j]; cbn [nth_error] in Hj.
  - injection Hj as <-. rewrite Nat.add_0_r. destruct (String.eqb_spec name "__") as [->|]; [|injection Ei as <-; now left]. right. destruct (opcode_retains_input c) eqn:R.
    + destruct (tindex_item ins 0) as [q| |] eqn:T; try discriminate. cbn [obind] in Ei. injection Ei as <-. exists q. split; [reflexivity|]. left. split; [first [exact R|reflexivity]|]. split; [now apply tindex_ok|]. right. exists (pre ++ "__" :: names). split; [exact O|]. now rewrite nth_error_app2, Nat.sub_diag by lia.
    + destruct order as [ord|]; [|discriminate]. destruct (nth_error ord (length pre)) as [n|] eqn:N; [|discriminate]. destruct (tindex_item ins n) as [q| |] eqn:T; try discriminate. cbn [obind] in Ei. injection Ei as <-. exists q. split; [reflexivity|]. right. exists ord, n. split; [reflexivity|]. split; [exact N|]. now apply tindex_ok.
  - specialize (IH (pre ++ [name])). rewrite app_length, Nat.add_1_r, <- app_assoc in IH. replace (length pre + S j)%nat with (S (length pre) + j)%nat by lia. eapply IH; [exact O|exact Er|exact Hj].
Qed.
Lemma tordered_nth ins order : forall g pushed g', tordered_outputs ins order g = Ok (pushed, g') -> forall j p, nth_error pushed j = Some p -> exists n i, nth_error order j = Some n /\ nth_error ins n = Some i /\ t_item p = t_item i.
Proof.
  induction order as [|k order IH]; intros g pushed g' E j p Hj; cbn [tordered_outputs tmake_ident] in E; [injection E as <- <-; destruct j; discriminate|]. destruct (tindex_item ins k) as [q| |] eqn:T; try discriminate. cbn [obind] in E.
  match type of E with obind ?x _ = _ => destruct x as [[is g2]| |] eqn:Er; try discriminate end. cbn [obind] in E. injection E as <- <-. destruct j as [|j]; cbn [nth_error] in *; [|eapply IH; eassumption]. injection Hj as <-. exists k, q. split; [reflexivity|]. split; [now apply tindex_ok|reflexivity].
Qed.
Lemma tfresh_source c ins n : forall g pushed g', tfresh_outputs c ins n g = Ok (pushed, g') -> forall j p, nth_error pushed j = Some p ->
  it_integer (t_item p) = None \/ exists i, t_item p = t_item i /\ opcode_retains_input c = true /\ nth_error ins 0 = Some i.
Proof.
  induction n as [|n IH]; intros g pushed g' E j p Hj; cbn [tfresh_outputs tmake_ident] in E; [injection E as <- <-; destruct j; discriminate|]. match type of E with obind ?x _ = _ => destruct x as [i| |] eqn:Ei; try discriminate end. cbn [obind] in E.
  match type of E with obind ?x _ = _ => destruct x as [[is g2]| |] eqn:Er; try discriminate end. cbn [obind] in E. injection E as <- <-. destruct j as [|j]; cbn [nth_error] in Hj; [|eapply IH; eassumption]. injection Hj as <-.
  destruct (opcode_retains_input c) eqn:R; [|injection Ei as <-; now left]. destruct (tindex_item ins 0) as [q| |] eqn:T; try discriminate. cbn [obind] in Ei. injection Ei as <-. right. exists q. split; [reflexivity|]. split; [reflexivity|]. now apply tindex_ok.
Qed.
Lemma tmade_source c o b ins g pushed g' : tmade_outputs c o b ins g = Ok (pushed, g') -> forall j p, nth_error pushed j = Some p -> source c o (b_output_order b) ins j p.
Proof.
  unfold tmade_outputs. intros E j p Hj. destruct (os_outputs o) as [names|] eqn:O.
  - destruct (Nat.eqb _ _); [|discriminate]. exact (tnamed_source c o (b_output_order b) ins names [] _ _ _ O E j p Hj).
  - destruct (b_output_order b) as [ord|] eqn:B.
    + destruct (tordered_nth _ _ _ _ _ E j p Hj) as (n & i & N & I & T). right. exists i. split; [exact T|]. right. exists ord, n. auto.
    + destruct (tfresh_source _ _ _ _ _ _ E j p Hj) as [N|(i & T & R & I)]; [now left|]. right. exists i. split; [exact T|]. left. auto.
Qed.
(** ** The values of the outputs *)
Definition size_known (c : opcode) (o : opcode_stmt) (ins : list titem) : Prop :=
  c = OP_SIZE -> (exists x y, os_outputs o = Some [x; y] /\ y <> "__") \/ forall i, nth_error ins 0 = Some i -> it_integer (t_item i) = None.
Lemma F2_by_nth {A B} (P : A -> B -> Prop) l : forall l', length l = length l' -> (forall j x y, nth_error l j = Some x -> nth_error l' j = Some y -> P x y) -> Forall2 P l l'.
Proof. induction l as [|x l IH]; intros [|y l'] L H; try discriminate; constructor; [apply (H O); reflexivity|]. apply IH; [now injection L|]. intros j. apply (H (S j)). Qed.
Definition valued (p : titem) (w : list Z) : Prop := forall k, it_integer (t_item p) = Some k -> script_num w = k.
Lemma nth_map_some {A} (l : list A) r (f : nat -> option A) ord j n : map Some l = map f ord -> nth_error ord j = Some n -> nth_error l j = Some r -> f n = Some r.
Proof. intros M N L. apply (map_nth_error Some) in L. rewrite M in L. apply (map_nth_error f) in N. rewrite N in L. now injection L. Qed.
Lemma outputs_valued G c o b ins vins outs g pushed g' : opcode_behavior c = Ok b -> length ins = length (b_input_types b) -> tmade_outputs c o b ins g = Ok (pushed, g') -> Forall2 (item_typed G) ins vins -> ordered c vins outs -> length pushed = length outs -> size_known c o ins ->
  (opcode_retains_input c = true -> c <> OP_SIZE -> length outs = 1%nat) -> (c = OP_SIZE -> length outs = 2%nat) -> Forall2 valued pushed outs.
Proof.
  intros B Li T F (O1 & O2) L SK R1 R2. apply F2_by_nth; [exact L|]. intros j p w Hp Hw k Hk. destruct (tmade_source _ _ _ _ _ _ _ T j p Hp) as [N|(i & Hi & [(R & I & W)|(ord & n & BO & On & I)])]; [congruence| |].
  - rewrite Hi in Hk. destruct (Forall2_nth _ _ _ _ _ F I) as (u & Hu & (_ & V)). rewrite <- (V k Hk). specialize (O2 R). destruct j as [|j]; [congruence|]. exfalso. assert (Lj : (S j < length outs)%nat) by (apply nth_error_Some; congruence).
    destruct (opcode_eqb c OP_SIZE) eqn:Q.
    + apply opcode_eqb_spec in Q. subst c. destruct (SK eq_refl) as [(x & y & E & Ny)|SK']; [|specialize (SK' _ I); congruence]. specialize (R2 eq_refl). destruct W as [W|(l & W & Wj)]; [congruence|]. rewrite E in W. injection W as <-. destruct j as [|j]; [cbn in Wj; congruence|lia].
    + assert (Nc : c <> OP_SIZE) by (intros ->; discriminate Q). specialize (R1 R Nc). lia.
  - rewrite Hi in Hk. destruct (Forall2_nth _ _ _ _ _ F I) as (u & Hu & (_ & V)). rewrite <- (V k Hk). destruct (opcode_eqb c OP_DEPTH) eqn:Q.
    + apply opcode_eqb_spec in Q. subst c. cbn in B. injection B as <-. cbn [b_input_types length] in Li. destruct ins; [|discriminate Li]. destruct n; discriminate I.
    + assert (Nc : c <> OP_DEPTH) by (intros ->; discriminate Q). specialize (O1 Nc b ord B BO). pose proof (nth_map_some _ _ _ _ _ _ O1 On Hw) as U. congruence.
Qed.
