(** Lemmas for C57: what the tracker's operations do to the state of one variant, with types. *)
From Coq Require DecimalNat DecimalString FinFun.
From Verif Require Import Base BaseLemmas Spec_Encoding Model_Integer Model_ByteArray Model_Opcode Model_Script Model_Behavior Model_Macro Spec_Script Spec_Macro Proofs_Integer Proofs_Script Proofs_Macro Proofs_Macro2 Proofs_Macro3 Proofs_Macro5
  Spec_Network Proofs_Behavior Spec_MacroRun Proofs_MacroRun Model_Mock Model_MacroType Spec_MacroType Proofs_MacroType Proofs_MacroType2.
Local Open Scope string_scope.
Local Open Scope list_scope.
Local Open Scope Z_scope.

(** ** Types of variables *)
Lemma item_fits G i j v : fits G i j -> item_typed G i v -> item_typed G j v.
Proof.
  intros ((a & b & A & B & C) & D) ((t & L & H) & K). rewrite A in L. injection L as <-. split; [exists b; auto|]. intros k Hk. apply K. now apply D.
Qed.
Lemma items_fit G l l' vs : Forall2 (fits G) l l' -> Forall2 (item_typed G) l vs -> Forall2 (item_typed G) l' vs.
Proof. intros H. revert vs. induction H as [|i j l l' F _ IH]; intros vs T; inversion T; subst; constructor; auto. eapply item_fits; eassumption. Qed.
Lemma raises_refl G : raises G G.
Proof. intros x t H. exists t. split; [exact H|]. intros v K. exact K. Qed.
Lemma raises_trans A B C : raises A B -> raises B C -> raises A C.
Proof. intros H K x t L. destruct (H x t L) as (u & M & S). destruct (K x u M) as (w & N & T). exists w. split; [exact N|]. intros v V. auto. Qed.
Lemma item_raised G G' i v : raises G G' -> item_typed G i v -> item_typed G' i v.
Proof. intros R ((t & L & H) & K). split; [|exact K]. destruct (R _ _ L) as (u & M & S). exists u. auto. Qed.
Lemma items_raised G G' l vs : raises G G' -> Forall2 (item_typed G) l vs -> Forall2 (item_typed G') l vs.
Proof. intros R H. induction H; constructor; auto. eapply item_raised; eassumption. Qed.
Lemma check_app a : forall b G G', check_lines G (a ++ b) = Some G' <-> exists G1, check_lines G a = Some G1 /\ check_lines G1 b = Some G'.
Proof.
  induction a as [|x a IH]; intros b G G'; cbn [app check_lines]; [split; [intros H; exists G; auto|intros (G1 & H & K); injection H as <-; exact K]|]. destruct (check_line G x) as [G1|]; [apply IH|]. split; [discriminate|]. intros (G1 & H & _). discriminate H.
Qed.
Lemma never_app a : forall b G, never_lowers G (a ++ b) <-> never_lowers G a /\ (forall G1, check_lines G a = Some G1 -> never_lowers G1 b).
Proof.
  induction a as [|x a IH]; intros b G; cbn [app never_lowers check_lines]; [split; [intros H; split; [exact I|]; intros G1 K; injection K as <-; exact H|intros (_ & H); now apply H]|]. split.
  - intros H. split; [intros G' K; destruct (H G' K) as (A & B); split; [exact A|]; now apply IH in B|]. intros G1. destruct (check_line G x) as [G'|]; [|discriminate]. destruct (H G' eq_refl) as (_ & B). apply IH in B. now apply B.
  - intros (H & K) G' C. destruct (H G' C) as (A & B). split; [exact A|]. apply IH. split; [exact B|]. intros G1. rewrite C in K. apply K.
Qed.
Lemma never_raises l : forall G G', never_lowers G l -> check_lines G l = Some G' -> raises G G'.
Proof.
  induction l as [|x l IH]; intros G G' N C; cbn [check_lines] in C; [injection C as <-; apply raises_refl|]. destruct (check_line G x) as [G1|] eqn:L; [|discriminate]. destruct (N G1 L) as (A & B). eapply raises_trans; [exact A|]. now apply IH.
Qed.

(** ** Pop *)
Lemma twith_condition s a l : ts_condition (twith_stack s a l) = ts_condition s.
Proof. now destruct a. Qed.
Definition tholds_in (vs : tvstates) (s : tstate) : Prop := holds (ts_condition s) (tv_atoms vs) = true.
Lemma tpop_loop_spec is_alt atoms l : forall prev l' res, tpop_loop is_alt atoms prev l = Ok (l', res) ->
  (forall p, prev = Some p -> exists i, res = Some i) /\
  (forall i, res = Some i -> prev = Some i \/ exists k v s rest, nth_error l k = Some (v, s) /\ holds (ts_condition s) atoms = true /\ tthe_stack s is_alt = i :: rest) /\
  (forall k v s, nth_error l k = Some (v, s) ->
     if holds (ts_condition s) atoms then exists i0 rest, tthe_stack s is_alt = i0 :: rest /\ nth_error l' k = Some (v, twith_stack s is_alt rest)
     else nth_error l' k = Some (v, s)) /\ length l' = length l.
Proof.
  induction l as [|[v s] l IH]; intros prev l' res E; cbn [tpop_loop] in E.
  - injection E as <- <-. split; [intros p ->; eauto|]. split; [intros i ->; now left|]. split; [|reflexivity]. intros [|k] ? ?; discriminate.
  - destruct (holds (ts_condition s) atoms) eqn:Eh.
    + destruct (tthe_stack s is_alt) as [|i rest] eqn:Es; [discriminate|]. destruct (tconsistent prev i); [|discriminate].
      destruct (tpop_loop is_alt atoms (Some i) l) as [[r' res']| |] eqn:El; try discriminate. cbn [obind] in E. injection E as <- <-.
      destruct (IH _ _ _ El) as (H2 & H3 & H4 & H5). destruct (H2 i eq_refl) as (j & ->). split; [eauto|]. split; [|split; [|cbn; now rewrite H5]].
      * intros i' Hi'. right. destruct (H3 _ Hi') as [Hp|(k & v' & s' & rest' & Hn & Hh & Ht)]; [injection Hp as <-; exists O, v, s, rest; auto|]. exists (S k), v', s', rest'. auto.
      * intros [|k] v' s' Hn; cbn [nth_error] in *; [injection Hn as <- <-; rewrite Eh; exists i, rest; auto|]. apply H4 in Hn. exact Hn.
    + destruct (tpop_loop is_alt atoms prev l) as [[r' res']| |] eqn:El; try discriminate. cbn [obind] in E. injection E as <- <-.
      destruct (IH _ _ _ El) as (H2 & H3 & H4 & H5). split; [exact H2|]. split; [|split; [|cbn; now rewrite H5]].
      * intros i' Hi'. destruct (H3 _ Hi') as [Hp|(k & v' & s' & rest' & Hn & Hh & Ht)]; [now left|]. right. exists (S k), v', s', rest'. auto.
      * intros [|k] v' s' Hn; cbn [nth_error] in *; [injection Hn as <- <-; now rewrite Eh|]. apply H4 in Hn. exact Hn.
Qed.
Lemma tpossible_nth g s : tpossible g s <-> exists k v, nth_error (tv_states (tg_vs g)) k = Some (v, s) /\ tholds_in (tg_vs g) s.
Proof.
  split; [intros (v & Hin & Hh); apply In_nth_error in Hin; destruct Hin as (k & Hk); exists k, v; auto|]. intros (k & v & Hk & Hh). exists v. split; [now apply nth_error_In in Hk|exact Hh].
Qed.
Lemma tpop_spec is_alt g i g' : tg_pop is_alt g = Ok (i, g') ->
  tg_n g' = tg_n g /\ tv_atoms (tg_vs g') = tv_atoms (tg_vs g) /\ length (tv_states (tg_vs g')) = length (tv_states (tg_vs g)) /\
  (exists s rest, tpossible g s /\ tthe_stack s is_alt = i :: rest) /\
  (forall k v s, nth_error (tv_states (tg_vs g)) k = Some (v, s) ->
     if holds (ts_condition s) (tv_atoms (tg_vs g)) then exists i0 rest, tthe_stack s is_alt = i0 :: rest /\ nth_error (tv_states (tg_vs g')) k = Some (v, twith_stack s is_alt rest)
     else nth_error (tv_states (tg_vs g')) k = Some (v, s)).
Proof.
  unfold tg_pop, tv_pop. intros E. destruct (tpop_loop is_alt (tv_atoms (tg_vs g)) None (tv_states (tg_vs g))) as [[l' res]| |] eqn:El; try discriminate. cbn [obind] in E.
  destruct res as [j|]; [|discriminate]. cbn [obind] in E. injection E as <- <-. cbn [tg_n tg_vs tv_atoms tv_states]. destruct (tpop_loop_spec _ _ _ _ _ _ El) as (_ & H3 & H4 & H5).
  split; [reflexivity|]. split; [reflexivity|]. split; [exact H5|]. split; [|exact H4].
  destruct (H3 _ eq_refl) as [H|(k & v & s & rest & Hn & Hh & Ht)]; [discriminate|]. exists s, rest. split; [exists v; split; [now apply nth_error_In in Hn|exact Hh]|exact Ht].
Qed.
Lemma tthe_same s a l : tthe_stack (twith_stack s a l) a = l.
Proof. now destruct a. Qed.
Lemma tpop_possible is_alt g i g' : tg_pop is_alt g = Ok (i, g') -> forall s', tpossible g' s' -> exists s i0, tpossible g s /\ tthe_stack s is_alt = i0 :: tthe_stack s' is_alt.
Proof.
  intros E s' Hp. destruct (tpop_spec _ _ _ _ E) as (_ & Ea & El & _ & H4). apply tpossible_nth in Hp. destruct Hp as (k & v & Hk & Hh).
  destruct (nth_error (tv_states (tg_vs g)) k) as [[v0 s0]|] eqn:E0; [|apply nth_error_None in E0; rewrite <- El in E0; apply nth_error_None in E0; congruence].
  specialize (H4 k v0 s0 E0). destruct (holds (ts_condition s0) (tv_atoms (tg_vs g))) eqn:Eh.
  - destruct H4 as (i0 & rest & Ht & Hk'). rewrite Hk' in Hk. injection Hk as <- <-. exists s0, i0. split; [apply tpossible_nth; exists k, v0; auto|]. now rewrite tthe_same.
  - rewrite H4 in Hk. injection Hk as <- <-. unfold tholds_in in Hh. rewrite Ea in Hh. congruence.
Qed.
Lemma tpop_agree G is_alt g i g' k : tg_pop is_alt g = Ok (i, g') -> tagree_at G is_alt (S k) g -> tagree_at G is_alt k g'.
Proof.
  intros E H s t x y Hs Ht Hx Hy. destruct (tpop_possible _ _ _ _ E s Hs) as (s0 & a & Ps & Es). destruct (tpop_possible _ _ _ _ E t Ht) as (t0 & b & Pt & Et).
  apply (H s0 t0 x y Ps Pt); [rewrite Es|rewrite Et]; assumption.
Qed.
Lemma tpop_own G is_alt g i g' k v s : tg_pop is_alt g = Ok (i, g') -> tagree_at G is_alt 0 g -> nth_error (tv_states (tg_vs g)) k = Some (v, s) -> tholds_in (tg_vs g) s ->
  exists i0 rest, tthe_stack s is_alt = i0 :: rest /\ nth_error (tv_states (tg_vs g')) k = Some (v, twith_stack s is_alt rest) /\ fits G i0 i.
Proof.
  intros E Ha Hk Hh. destruct (tpop_spec _ _ _ _ E) as (_ & _ & _ & (s1 & r1 & P1 & T1) & H4). specialize (H4 k v s Hk). unfold tholds_in in Hh. rewrite Hh in H4. destruct H4 as (i0 & rest & Ht & Hk').
  exists i0, rest. split; [exact Ht|]. split; [exact Hk'|]. apply (Ha s s1); [apply tpossible_nth; exists k, v; auto|exact P1|rewrite Ht; reflexivity|rewrite T1; reflexivity].
Qed.
(** ** Push *)
Lemma tpush_own is_alt i g k v s : nth_error (tv_states (tg_vs g)) k = Some (v, s) -> tholds_in (tg_vs g) s ->
  nth_error (tv_states (tg_vs (tg_push is_alt i g))) k = Some (v, twith_stack s is_alt (i :: tthe_stack s is_alt)).
Proof. intros H Hh. unfold tg_push, tv_push. cbn [tg_vs tv_states]. rewrite (map_nth_error _ _ _ H). unfold tholds_in in Hh. now rewrite Hh. Qed.
Lemma tpushes_own l : forall g k v s, nth_error (tv_states (tg_vs g)) k = Some (v, s) -> tholds_in (tg_vs g) s ->
  nth_error (tv_states (tg_vs (fold_left (fun g i => tg_push false i g) l g))) k = Some (v, twith_stack s false (rev l ++ ts_stack s)).
Proof.
  induction l as [|i l IH]; intros g k v s Hk Hh; cbn [fold_left rev app]; [destruct s; exact Hk|].
  rewrite (IH (tg_push false i g) k v _ (tpush_own false i g k v s Hk Hh)); [|unfold tholds_in; rewrite twith_condition; exact Hh]. do 2 f_equal. cbn. now rewrite <- app_assoc.
Qed.
Lemma tpop_n_own G n : forall g acc items g', tpop_n n g acc = Ok (items, g') -> (forall k, (k < n)%nat -> tagree_at G false k g) ->
  tg_n g' = tg_n g /\ tv_atoms (tg_vs g') = tv_atoms (tg_vs g) /\
  exists new, items = rev new ++ acc /\ length new = n /\
  forall k v s, nth_error (tv_states (tg_vs g)) k = Some (v, s) -> tholds_in (tg_vs g) s ->
    exists own rest, ts_stack s = own ++ rest /\ Forall2 (fits G) own new /\ nth_error (tv_states (tg_vs g')) k = Some (v, twith_stack s false rest).
Proof.
  induction n as [|n IH]; intros g acc items g' E Ha; cbn [tpop_n] in E.
  - injection E as <- <-. repeat (split; [reflexivity|]). exists []. repeat (split; [reflexivity|]). intros k v s Hk Hh. exists [], (ts_stack s). split; [reflexivity|]. split; [constructor|]. destruct s; exact Hk.
  - destruct (tg_pop false g) as [[i g1]| |] eqn:Ep; try discriminate. cbn [obind] in E. destruct (IH g1 (i :: acc) items g' E) as (A & B & new & -> & Hl & H).
    { intros k Hk. apply (tpop_agree _ _ _ _ _ _ Ep). apply Ha. lia. }
    destruct (tpop_spec _ _ _ _ Ep) as (A' & B' & _). split; [congruence|]. split; [congruence|]. exists (i :: new).
    split; [cbn [rev]; now rewrite <- app_assoc|]. split; [cbn; now rewrite Hl|]. intros k v s Hk Hh.
    destruct (tpop_own G _ _ _ _ _ _ _ Ep (Ha O ltac:(lia)) Hk Hh) as (i0 & rest & Et & Hk' & Hst). destruct (H k v _ Hk') as (own & rest' & Es & HF & Hk''). { unfold tholds_in in *. rewrite twith_condition, B'. exact Hh. }
    exists (i0 :: own), rest'. cbn in Et, Es. split; [rewrite Et, Es; reflexivity|]. split; [now constructor|]. rewrite Hk''. destruct s; reflexivity.
Qed.
(** ** Pick and roll *)
Lemma tpick_loop_spec depth is_roll atoms l : forall prev l' res, tpick_loop depth is_roll atoms prev l = Ok (l', res) ->
  (forall p, prev = Some p -> exists i, res = Some i) /\
  (forall i, res = Some i -> prev = Some i \/ exists k v s, nth_error l k = Some (v, s) /\ holds (ts_condition s) atoms = true /\ nth_error (ts_stack s) depth = Some i) /\
  (forall k v s, nth_error l k = Some (v, s) ->
     if holds (ts_condition s) atoms then exists i0, nth_error (ts_stack s) depth = Some i0 /\ nth_error l' k = Some (v, if is_roll then twith_stack s false (remove_nth depth (ts_stack s)) else s)
     else nth_error l' k = Some (v, s)).
Proof.
  induction l as [|[v s] l IH]; intros prev l' res E; cbn [tpick_loop] in E.
  - injection E as <- <-. split; [intros p ->; eauto|]. split; [intros i ->; now left|]. intros [|k] ? ?; discriminate.
  - destruct (holds (ts_condition s) atoms) eqn:Eh.
    + destruct (nth_error (ts_stack s) depth) as [i|] eqn:Es; [|discriminate]. destruct (tconsistent prev i); [|discriminate].
      destruct (tpick_loop depth is_roll atoms (Some i) l) as [[r' res']| |] eqn:El; try discriminate. cbn [obind] in E. injection E as <- <-.
      destruct (IH _ _ _ El) as (H2 & H3 & H4). destruct (H2 i eq_refl) as (j & ->). split; [eauto|]. split.
      * intros i' Hi'. right. destruct (H3 _ Hi') as [Hp|(k & v' & s' & Hn & Hh & Ht)]; [injection Hp as <-; exists O, v, s; auto|]. exists (S k), v', s'. auto.
      * intros [|k] v' s' Hn; cbn [nth_error] in *; [injection Hn as <- <-; rewrite Eh; exists i; auto|]. apply H4 in Hn. exact Hn.
    + destruct (tpick_loop depth is_roll atoms prev l) as [[r' res']| |] eqn:El; try discriminate. cbn [obind] in E. injection E as <- <-.
      destruct (IH _ _ _ El) as (H2 & H3 & H4). split; [exact H2|]. split.
      * intros i' Hi'. destruct (H3 _ Hi') as [Hp|(k & v' & s' & Hn & Hh & Ht)]; [now left|]. right. exists (S k), v', s'. auto.
      * intros [|k] v' s' Hn; cbn [nth_error] in *; [injection Hn as <- <-; now rewrite Eh|]. apply H4 in Hn. exact Hn.
Qed.
Lemma tpick_spec depth is_roll vs i vs' : tv_pick_roll depth is_roll vs = Ok (i, vs') ->
  tv_atoms vs' = tv_atoms vs /\
  (exists k v s, nth_error (tv_states vs) k = Some (v, s) /\ tholds_in vs s /\ nth_error (ts_stack s) depth = Some i) /\
  (forall k v s, nth_error (tv_states vs) k = Some (v, s) -> tholds_in vs s ->
     exists i0, nth_error (ts_stack s) depth = Some i0 /\ nth_error (tv_states vs') k = Some (v, if is_roll then twith_stack s false (remove_nth depth (ts_stack s)) else s)).
Proof.
  unfold tv_pick_roll. intros E. destruct (tpick_loop depth is_roll (tv_atoms vs) None (tv_states vs)) as [[l' res]| |] eqn:El; try discriminate. cbn [obind] in E.
  destruct res as [j|]; [|discriminate]. injection E as <- <-. cbn [tv_atoms tv_states]. destruct (tpick_loop_spec _ _ _ _ _ _ _ El) as (_ & H3 & H4).
  split; [reflexivity|]. split.
  - destruct (H3 _ eq_refl) as [H|H]; [discriminate|exact H].
  - intros k v s Hn Hh. specialize (H4 k v s Hn). unfold tholds_in in Hh. now rewrite Hh in H4.
Qed.

(** ** Variables of the outputs *)
Lemma id_name_inj a b : id_name a = id_name b -> a = b.
Proof.
  unfold id_name. intros H. assert (E : DecimalString.NilEmpty.string_of_uint (Nat.to_uint a) = DecimalString.NilEmpty.string_of_uint (Nat.to_uint b)) by (now injection H).
  assert (U : Some (Nat.to_uint a) = Some (Nat.to_uint b)) by (rewrite <- !DecimalString.NilEmpty.usu; now rewrite E). injection U as U. rewrite <- (DecimalNat.Unsigned.of_to a), <- (DecimalNat.Unsigned.of_to b). now rewrite U.
Qed.
Definition idents_from (n : nat) (l : list titem) : Prop := map t_ident l = map id_name (seq n (length l)).
Lemma tnamed_idents c order ins names : forall idx g pushed g', tnamed_outputs c order ins idx names g = Ok (pushed, g') -> idents_from (tg_n g) pushed /\ tg_vs g' = tg_vs g.
Proof.
  induction names as [|name names IH]; intros idx g pushed g' E; cbn [tnamed_outputs tmake_ident] in E; [injection E as <- <-; split; reflexivity|].
  match type of E with obind ?x _ = _ => destruct x as [i| |] eqn:Ei; try discriminate end. cbn [obind] in E. match type of E with obind ?x _ = _ => destruct x as [[is g2]| |] eqn:Er; try discriminate end. cbn [obind] in E. injection E as <- <-.
  destruct (IH _ _ _ _ Er) as (H1 & H2). split; [|exact H2]. unfold idents_from in *. cbn [length seq map]. rewrite H1. f_equal. destruct (String.eqb name "__"); [|injection Ei as <-; reflexivity].
  destruct (opcode_retains_input c); [destruct (tindex_item ins 0); try discriminate; cbn [obind] in Ei; injection Ei as <-; reflexivity|]. destruct order as [ord|]; [|discriminate]. destruct (nth_error ord idx) as [k|]; [|discriminate]. destruct (tindex_item ins k); try discriminate; cbn [obind] in Ei; injection Ei as <-; reflexivity.
Qed.
Lemma tordered_idents ins order : forall g pushed g', tordered_outputs ins order g = Ok (pushed, g') -> idents_from (tg_n g) pushed /\ tg_vs g' = tg_vs g.
Proof.
  induction order as [|k order IH]; intros g pushed g' E; cbn [tordered_outputs tmake_ident] in E; [injection E as <- <-; split; reflexivity|]. destruct (tindex_item ins k) as [j| |]; try discriminate. cbn [obind] in E.
  match type of E with obind ?x _ = _ => destruct x as [[is g2]| |] eqn:Er; try discriminate end. cbn [obind] in E. injection E as <- <-. destruct (IH _ _ _ Er) as (H1 & H2). split; [|exact H2]. unfold idents_from in *. cbn [length seq map]. now rewrite H1.
Qed.
Lemma tfresh_idents c ins n : forall g pushed g', tfresh_outputs c ins n g = Ok (pushed, g') -> idents_from (tg_n g) pushed /\ tg_vs g' = tg_vs g.
Proof.
  induction n as [|n IH]; intros g pushed g' E; cbn [tfresh_outputs tmake_ident] in E; [injection E as <- <-; split; reflexivity|]. match type of E with obind ?x _ = _ => destruct x as [i| |] eqn:Ei; try discriminate end. cbn [obind] in E.
  match type of E with obind ?x _ = _ => destruct x as [[is g2]| |] eqn:Er; try discriminate end. cbn [obind] in E. injection E as <- <-. destruct (IH _ _ _ Er) as (H1 & H2). split; [|exact H2]. unfold idents_from in *. cbn [length seq map]. rewrite H1. f_equal.
  destruct (opcode_retains_input c); [destruct (tindex_item ins 0); try discriminate; cbn [obind] in Ei|]; injection Ei as <-; reflexivity.
Qed.
Lemma tmade_idents c o b ins g pushed g' : tmade_outputs c o b ins g = Ok (pushed, g') -> NoDup (map t_ident pushed) /\ tg_vs g' = tg_vs g.
Proof.
  intros E. assert (H : idents_from (tg_n g) pushed /\ tg_vs g' = tg_vs g).
  { unfold tmade_outputs in E. destruct (os_outputs o) as [names|]; [destruct (Nat.eqb _ _); [|discriminate]; eapply tnamed_idents; eassumption|]. destruct (b_output_order b); [eapply tordered_idents|eapply tfresh_idents]; eassumption. }
  destruct H as (H & K). split; [|exact K]. rewrite H. apply FinFun.Injective_map_NoDup; [intros x y; apply id_name_inj|apply seq_NoDup].
Qed.
Lemma bind_old xs : forall ts G G' x, bind_all xs ts G = Some G' -> ~ In x xs -> lookup G' x = lookup G x.
Proof.
  induction xs as [|y xs IH]; intros [|t ts] G G' x B N; cbn [bind_all] in B; try discriminate; [injection B as <-; reflexivity|]. rewrite (IH _ _ _ _ B) by (intros K; apply N; now right). cbn [lookup]. destruct (String.eqb_spec x y) as [->|]; [exfalso; apply N; now left|reflexivity].
Qed.
Lemma bind_new xs : forall ts G G', bind_all xs ts G = Some G' -> NoDup xs -> Forall2 (fun x t => lookup G' x = Some t) xs ts.
Proof.
  induction xs as [|y xs IH]; intros [|t ts] G G' B N; cbn [bind_all] in B; try discriminate; [constructor|]. inversion N; subst. constructor; [|eapply IH; eassumption]. rewrite (bind_old _ _ _ _ _ B) by assumption. cbn [lookup]. now rewrite String.eqb_refl.
Qed.
