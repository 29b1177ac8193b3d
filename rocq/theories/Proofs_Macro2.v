(** Lemmas for C39: what the tracker's operations do to the state of one variant. *)
From Verif Require Import Base BaseLemmas Spec_Encoding Model_Integer Model_ByteArray Model_Opcode Model_Script Model_Behavior Model_Macro Spec_Macro Proofs_Integer Proofs_Macro.
Local Open Scope string_scope.
Local Open Scope list_scope.
Local Open Scope Z_scope.

(** Two items the tracker regards as consistent. *)
Definition alike (i j : item) : Prop := it_generated i = it_generated j /\ (it_generated i = false -> it_name i = it_name j).
Lemma alike_refl i : alike i i. Proof. split; auto. Qed.
Lemma alike_sym i j : alike i j -> alike j i.
Proof. intros (E & H). split; [auto|]. intros F. symmetry. apply H. congruence. Qed.
Lemma alike_trans i j k : alike i j -> alike j k -> alike i k.
Proof. intros (E & H) (E' & H'). split; [congruence|]. intros F. rewrite H by assumption. apply H'. congruence. Qed.
Lemma alike_tokens i j : alike i j -> name_tokens i = name_tokens j.
Proof. intros (E & H). unfold name_tokens. rewrite <- E. destruct (it_generated i); [reflexivity|]. now rewrite H. Qed.
Lemma consistent_alike p i : consistent_names (Some p) i = true -> alike p i.
Proof.
  unfold consistent_names. intros H. apply andb_prop in H. destruct H as (H1 & H2). apply eqb_prop in H1. split; [auto|]. intros F. rewrite F in *. rewrite H1 in H2. cbn in H2. symmetry. now apply String.eqb_eq.
Qed.

Definition holds_in (vs : vstates) (s : state) : Prop := holds (st_condition s) (vs_atoms vs) = true.
Lemma with_stack_condition s a l : st_condition (with_stack s a l) = st_condition s.
Proof. destruct a; reflexivity. Qed.
Lemma with_stack_same s a l : the_stack (with_stack s a l) a = l.
Proof. destruct a; reflexivity. Qed.
Lemma with_stack_other s a l : the_stack (with_stack s a l) (negb a) = the_stack s (negb a).
Proof. destruct a; reflexivity. Qed.

(** Pop. *)
Lemma pop_loop_spec is_alt atoms l : forall prev l' res, pop_loop is_alt atoms prev l = Ok (l', res) ->
  length l' = length l /\
  (forall p, prev = Some p -> exists i, res = Some i /\ alike p i) /\
  (forall i, res = Some i -> prev = Some i \/ exists k v s rest, nth_error l k = Some (v, s) /\ holds (st_condition s) atoms = true /\ the_stack s is_alt = i :: rest) /\
  (forall k v s, nth_error l k = Some (v, s) ->
     if holds (st_condition s) atoms then exists i0 rest i, the_stack s is_alt = i0 :: rest /\ nth_error l' k = Some (v, with_stack s is_alt rest) /\ res = Some i /\ alike i0 i
     else nth_error l' k = Some (v, s)).
Proof.
  induction l as [|[v s] l IH]; intros prev l' res E; cbn [pop_loop] in E.
  - injection E as <- <-. split; [reflexivity|]. split; [intros p ->; exists p; split; [reflexivity|apply alike_refl]|]. split; [intros i ->; now left|]. intros [|k] ? ?; discriminate.
  - destruct (holds (st_condition s) atoms) eqn:Eh.
    + destruct (the_stack s is_alt) as [|i rest] eqn:Es; [discriminate|]. destruct (consistent_names prev i) eqn:Ec; [|discriminate].
      destruct (pop_loop is_alt atoms (Some i) l) as [[r' res']| |] eqn:El; try discriminate. cbn [obind] in E. injection E as <- <-.
      destruct (IH _ _ _ El) as (H1 & H2 & H3 & H4). destruct (H2 i eq_refl) as (j & -> & Hj). split; [cbn; now rewrite H1|].
      split; [intros p ->; exists j; split; [reflexivity|]; apply (alike_trans _ i); [now apply consistent_alike|exact Hj]|].
      split.
      * intros i' Hi'. right. destruct (H3 _ Hi') as [Hp|(k & v' & s' & rest' & Hn & Hh & Ht)]; [injection Hp as <-; exists O, v, s, rest; auto|]. exists (S k), v', s', rest'. auto.
      * intros [|k] v' s' Hn; cbn [nth_error] in *; [injection Hn as <- <-; rewrite Eh; exists i, rest, j; auto|]. apply H4 in Hn. exact Hn.
    + destruct (pop_loop is_alt atoms prev l) as [[r' res']| |] eqn:El; try discriminate. cbn [obind] in E. injection E as <- <-.
      destruct (IH _ _ _ El) as (H1 & H2 & H3 & H4). split; [cbn; now rewrite H1|]. split; [exact H2|]. split.
      * intros i' Hi'. destruct (H3 _ Hi') as [Hp|(k & v' & s' & rest' & Hn & Hh & Ht)]; [now left|]. right. exists (S k), v', s', rest'. auto.
      * intros [|k] v' s' Hn; cbn [nth_error] in *; [injection Hn as <- <-; now rewrite Eh|]. apply H4 in Hn. exact Hn.
Qed.
Lemma pop_spec is_alt g i g' : g_pop is_alt g = Ok (i, g') ->
  g_n g' = g_n g /\ vs_atoms (g_vs g') = vs_atoms (g_vs g) /\ length (vs_states (g_vs g')) = length (vs_states (g_vs g)) /\
  (exists s rest, possible g s /\ the_stack s is_alt = i :: rest) /\
  (forall k v s, nth_error (vs_states (g_vs g)) k = Some (v, s) ->
     if holds (st_condition s) (vs_atoms (g_vs g)) then exists i0 rest, the_stack s is_alt = i0 :: rest /\ nth_error (vs_states (g_vs g')) k = Some (v, with_stack s is_alt rest) /\ alike i0 i
     else nth_error (vs_states (g_vs g')) k = Some (v, s)).
Proof.
  unfold g_pop, vs_pop. intros E. destruct (pop_loop is_alt (vs_atoms (g_vs g)) None (vs_states (g_vs g))) as [[l' res]| |] eqn:El; try discriminate. cbn [obind] in E.
  destruct res as [j|]; [|discriminate]. cbn [obind] in E. injection E as <- <-. cbn [g_n g_vs vs_atoms vs_states]. destruct (pop_loop_spec _ _ _ _ _ _ El) as (H1 & _ & H3 & H4).
  split; [reflexivity|]. split; [reflexivity|]. split; [exact H1|]. split.
  - destruct (H3 _ eq_refl) as [H|(k & v & s & rest & Hn & Hh & Ht)]; [discriminate|]. exists s, rest. split; [exists v; split; [now apply nth_error_In in Hn|exact Hh]|exact Ht].
  - intros k v s Hn. specialize (H4 k v s Hn). destruct (holds (st_condition s) (vs_atoms (g_vs g))); [|exact H4]. destruct H4 as (i0 & rest & i & Ht & Hn' & Ei & Ha). injection Ei as <-. exists i0, rest. auto.
Qed.
Lemma possible_nth g s : possible g s <-> exists k v, nth_error (vs_states (g_vs g)) k = Some (v, s) /\ holds (st_condition s) (vs_atoms (g_vs g)) = true.
Proof.
  split; [intros (v & Hin & Hh); apply In_nth_error in Hin; destruct Hin as (k & Hk); exists k, v; auto|]. intros (k & v & Hk & Hh). exists v. split; [now apply nth_error_In in Hk|exact Hh].
Qed.
(** Possible states before and after a pop. *)
Lemma pop_possible is_alt g i g' : g_pop is_alt g = Ok (i, g') -> forall s', possible g' s' -> exists s i0, possible g s /\ the_stack s is_alt = i0 :: the_stack s' is_alt /\ the_stack s (negb is_alt) = the_stack s' (negb is_alt).
Proof.
  intros E s' Hp. destruct (pop_spec _ _ _ _ E) as (_ & Ea & El & _ & H4). apply possible_nth in Hp. destruct Hp as (k & v & Hk & Hh).
  destruct (nth_error (vs_states (g_vs g)) k) as [[v0 s0]|] eqn:E0; [|apply nth_error_None in E0; rewrite <- El in E0; apply nth_error_None in E0; congruence].
  specialize (H4 k v0 s0 E0). destruct (holds (st_condition s0) (vs_atoms (g_vs g))) eqn:Eh.
  - destruct H4 as (i0 & rest & Ht & Hk' & _). rewrite Hk' in Hk. injection Hk as <- <-. exists s0, i0. split; [apply possible_nth; eauto|]. rewrite with_stack_same, with_stack_other. auto.
  - rewrite H4 in Hk. injection Hk as <- <-. rewrite Ea in Hh. congruence.
Qed.
Lemma pop_possible_fw is_alt g i g' : g_pop is_alt g = Ok (i, g') -> forall s, possible g s -> exists s' i0, possible g' s' /\ the_stack s is_alt = i0 :: the_stack s' is_alt /\ the_stack s (negb is_alt) = the_stack s' (negb is_alt) /\ alike i0 i.
Proof.
  intros E s Hp. destruct (pop_spec _ _ _ _ E) as (_ & Ea & El & _ & H4). apply possible_nth in Hp. destruct Hp as (k & v & Hk & Hh). specialize (H4 k v s Hk). rewrite Hh in H4. destruct H4 as (i0 & rest & Ht & Hk' & Hal).
  exists (with_stack s is_alt rest), i0. split; [apply possible_nth; exists k, v; rewrite with_stack_condition, Ea; auto|]. rewrite with_stack_same, with_stack_other. auto.
Qed.
Lemma pop_agree is_alt g i g' k : g_pop is_alt g = Ok (i, g') -> agree_at is_alt (S k) g -> agree_at is_alt k g'.
Proof.
  intros E H s t x y Hs Ht Hx Hy. destruct (pop_possible _ _ _ _ E s Hs) as (s0 & a & Ps & Es & _). destruct (pop_possible _ _ _ _ E t Ht) as (t0 & b & Pt & Et & _).
  apply (H s0 t0 x y Ps Pt); [rewrite Es|rewrite Et]; assumption.
Qed.
Lemma pop_agree_back is_alt g i g' k : g_pop is_alt g = Ok (i, g') -> agree_at is_alt k g' -> agree_at is_alt (S k) g.
Proof.
  intros E H s t x y Hs Ht Hx Hy. destruct (pop_possible_fw _ _ _ _ E s Hs) as (s0 & a & Ps & Es & _). destruct (pop_possible_fw _ _ _ _ E t Ht) as (t0 & b & Pt & Et & _).
  rewrite Es in Hx. rewrite Et in Hy. exact (H s0 t0 x y Ps Pt Hx Hy).
Qed.
(** Seen from one possible variant: the popped item stands for its own top item. *)
Definition stands_for (i0 i : item) : Prop := same_item i0 i /\ alike i0 i.
Lemma pop_own is_alt g i g' k v s : g_pop is_alt g = Ok (i, g') -> agree_at is_alt 0 g -> nth_error (vs_states (g_vs g)) k = Some (v, s) -> holds_in (g_vs g) s ->
  exists i0 rest, the_stack s is_alt = i0 :: rest /\ nth_error (vs_states (g_vs g')) k = Some (v, with_stack s is_alt rest) /\ stands_for i0 i.
Proof.
  intros E Ha Hk Hh. destruct (pop_spec _ _ _ _ E) as (_ & _ & _ & (s1 & r1 & P1 & T1) & H4). specialize (H4 k v s Hk). unfold holds_in in Hh. rewrite Hh in H4. destruct H4 as (i0 & rest & Ht & Hk' & Hal).
  exists i0, rest. split; [exact Ht|]. split; [exact Hk'|]. split; [|exact Hal]. apply (Ha s s1); [apply possible_nth; eauto|exact P1|rewrite Ht; reflexivity|rewrite T1; reflexivity].
Qed.
(** Push. *)
Lemma push_own is_alt i g k v s : nth_error (vs_states (g_vs g)) k = Some (v, s) ->
  nth_error (vs_states (g_vs (g_push is_alt i g))) k = Some (v, if holds (st_condition s) (vs_atoms (g_vs g)) then with_stack s is_alt (i :: the_stack s is_alt) else s).
Proof. intros H. unfold g_push, vs_push. cbn [g_vs vs_states]. now rewrite (map_nth_error _ _ _ H). Qed.
Lemma push_atoms is_alt i g : vs_atoms (g_vs (g_push is_alt i g)) = vs_atoms (g_vs g).
Proof. reflexivity. Qed.
Lemma push_length is_alt i g : length (vs_states (g_vs (g_push is_alt i g))) = length (vs_states (g_vs g)).
Proof. unfold g_push, vs_push. cbn. apply map_length. Qed.
Lemma pushes_own l : forall g k v s, nth_error (vs_states (g_vs g)) k = Some (v, s) -> holds_in (g_vs g) s ->
  let g' := fold_left (fun g i => g_push false i g) l g in
  g_n g' = g_n g /\ vs_atoms (g_vs g') = vs_atoms (g_vs g) /\ length (vs_states (g_vs g')) = length (vs_states (g_vs g)) /\
  nth_error (vs_states (g_vs g')) k = Some (v, with_stack s false (rev l ++ st_stack s)).
Proof.
  induction l as [|i l IH]; intros g k v s Hk Hh; cbn [fold_left rev app]; [destruct s; auto|].
  pose proof (push_own false i g k v s Hk) as Hp. unfold holds_in in Hh. rewrite Hh in Hp.
  destruct (IH (g_push false i g) k v _ Hp) as (A & B & C & D). { unfold holds_in. rewrite with_stack_condition. exact Hh. }
  rewrite A, B, C, D. split; [reflexivity|]. split; [reflexivity|]. split; [apply push_length|]. f_equal. f_equal. cbn. now rewrite <- app_assoc.
Qed.
Lemma pushes_meta l : forall g, let g' := fold_left (fun g i => g_push false i g) l g in
  g_n g' = g_n g /\ vs_atoms (g_vs g') = vs_atoms (g_vs g) /\ length (vs_states (g_vs g')) = length (vs_states (g_vs g)) /\
  (forall k v s, nth_error (vs_states (g_vs g)) k = Some (v, s) -> ~ holds_in (g_vs g) s -> nth_error (vs_states (g_vs g')) k = Some (v, s)).
Proof.
  induction l as [|i l IH]; intros g; cbn [fold_left]; [auto|]. destruct (IH (g_push false i g)) as (A & B & C & D). rewrite A, B, C. split; [reflexivity|]. split; [reflexivity|]. split; [apply push_length|].
  intros k v s Hk Hh. apply D; [|exact Hh]. pose proof (push_own false i g k v s Hk) as Hp. unfold holds_in in Hh. destruct (holds (st_condition s) (vs_atoms (g_vs g))); [congruence|exact Hp].
Qed.
(** Pop of several. *)
Lemma pop_n_own n : forall g acc items g', pop_n n g acc = Ok (items, g') -> (forall k, (k < n)%nat -> agree_at false k g) ->
  g_n g' = g_n g /\ vs_atoms (g_vs g') = vs_atoms (g_vs g) /\ length (vs_states (g_vs g')) = length (vs_states (g_vs g)) /\
  exists new, items = rev new ++ acc /\ length new = n /\
  forall k v s, nth_error (vs_states (g_vs g)) k = Some (v, s) -> holds_in (g_vs g) s ->
    exists own rest, st_stack s = own ++ rest /\ Forall2 stands_for own new /\ nth_error (vs_states (g_vs g')) k = Some (v, with_stack s false rest).
Proof.
  induction n as [|n IH]; intros g acc items g' E Ha; cbn [pop_n] in E.
  - injection E as <- <-. repeat (split; [reflexivity|]). exists []. repeat (split; [reflexivity|]). intros k v s Hk Hh. exists [], (st_stack s). split; [reflexivity|]. split; [constructor|]. destruct s; exact Hk.
  - destruct (g_pop false g) as [[i g1]| |] eqn:Ep; try discriminate. cbn [obind] in E. destruct (IH g1 (i :: acc) items g' E) as (A & B & C & new & -> & Hl & H).
    { intros k Hk. apply (pop_agree _ _ _ _ _ Ep). apply Ha. lia. }
    destruct (pop_spec _ _ _ _ Ep) as (A' & B' & C' & _ & _). split; [congruence|]. split; [congruence|]. split; [congruence|]. exists (i :: new).
    split; [cbn [rev]; now rewrite <- app_assoc|]. split; [cbn; now rewrite Hl|]. intros k v s Hk Hh.
    destruct (pop_own _ _ _ _ _ _ _ Ep (Ha O ltac:(lia)) Hk Hh) as (i0 & rest & Et & Hk' & Hst). destruct (H k v _ Hk') as (own & rest' & Es & HF & Hk''). { unfold holds_in in *. rewrite with_stack_condition, B'. exact Hh. }
    exists (i0 :: own), rest'. cbn in Et, Es. split; [rewrite Et, Es; reflexivity|]. split; [now constructor|]. rewrite Hk''. destruct s; reflexivity.
Qed.
(** Pick and roll. *)
Lemma pick_loop_spec depth is_roll atoms l : forall prev l' res, pick_loop depth is_roll atoms prev l = Ok (l', res) ->
  length l' = length l /\
  (forall p, prev = Some p -> exists i, res = Some i /\ alike p i) /\
  (forall i, res = Some i -> prev = Some i \/ exists k v s, nth_error l k = Some (v, s) /\ holds (st_condition s) atoms = true /\ nth_error (st_stack s) depth = Some i) /\
  (forall k v s, nth_error l k = Some (v, s) ->
     if holds (st_condition s) atoms then exists i0 i, nth_error (st_stack s) depth = Some i0 /\ nth_error l' k = Some (v, if is_roll then with_stack s false (remove_nth depth (st_stack s)) else s) /\ res = Some i /\ alike i0 i
     else nth_error l' k = Some (v, s)).
Proof.
  induction l as [|[v s] l IH]; intros prev l' res E; cbn [pick_loop] in E.
  - injection E as <- <-. split; [reflexivity|]. split; [intros p ->; exists p; split; [reflexivity|apply alike_refl]|]. split; [intros i ->; now left|]. intros [|k] ? ?; discriminate.
  - destruct (holds (st_condition s) atoms) eqn:Eh.
    + destruct (nth_error (st_stack s) depth) as [i|] eqn:Es; [|discriminate]. destruct (consistent_names prev i) eqn:Ec; [|discriminate].
      destruct (pick_loop depth is_roll atoms (Some i) l) as [[r' res']| |] eqn:El; try discriminate. cbn [obind] in E. injection E as <- <-.
      destruct (IH _ _ _ El) as (H1 & H2 & H3 & H4). destruct (H2 i eq_refl) as (j & -> & Hj). split; [cbn; now rewrite H1|].
      split; [intros p ->; exists j; split; [reflexivity|]; apply (alike_trans _ i); [now apply consistent_alike|exact Hj]|].
      split.
      * intros i' Hi'. right. destruct (H3 _ Hi') as [Hp|(k & v' & s' & Hn & Hh & Ht)]; [injection Hp as <-; exists O, v, s; auto|]. exists (S k), v', s'. auto.
      * intros [|k] v' s' Hn; cbn [nth_error] in *; [injection Hn as <- <-; rewrite Eh; exists i, j; auto|]. apply H4 in Hn. exact Hn.
    + destruct (pick_loop depth is_roll atoms prev l) as [[r' res']| |] eqn:El; try discriminate. cbn [obind] in E. injection E as <- <-.
      destruct (IH _ _ _ El) as (H1 & H2 & H3 & H4). split; [cbn; now rewrite H1|]. split; [exact H2|]. split.
      * intros i' Hi'. destruct (H3 _ Hi') as [Hp|(k & v' & s' & Hn & Hh & Ht)]; [now left|]. right. exists (S k), v', s'. auto.
      * intros [|k] v' s' Hn; cbn [nth_error] in *; [injection Hn as <- <-; now rewrite Eh|]. apply H4 in Hn. exact Hn.
Qed.
Lemma pick_spec depth is_roll vs i vs' : vs_pick_roll depth is_roll vs = Ok (i, vs') ->
  vs_atoms vs' = vs_atoms vs /\ length (vs_states vs') = length (vs_states vs) /\
  (exists k v s, nth_error (vs_states vs) k = Some (v, s) /\ holds (st_condition s) (vs_atoms vs) = true /\ nth_error (st_stack s) depth = Some i) /\
  (forall k v s, nth_error (vs_states vs) k = Some (v, s) ->
     if holds (st_condition s) (vs_atoms vs) then exists i0, nth_error (st_stack s) depth = Some i0 /\ nth_error (vs_states vs') k = Some (v, if is_roll then with_stack s false (remove_nth depth (st_stack s)) else s) /\ alike i0 i
     else nth_error (vs_states vs') k = Some (v, s)).
Proof.
  unfold vs_pick_roll. intros E. destruct (pick_loop depth is_roll (vs_atoms vs) None (vs_states vs)) as [[l' res]| |] eqn:El; try discriminate. cbn [obind] in E.
  destruct res as [j|]; [|discriminate]. injection E as <- <-. cbn [vs_atoms vs_states]. destruct (pick_loop_spec _ _ _ _ _ _ _ El) as (H1 & _ & H3 & H4).
  split; [reflexivity|]. split; [exact H1|]. split.
  - destruct (H3 _ eq_refl) as [H|H]; [discriminate|exact H].
  - intros k v s Hn. specialize (H4 k v s Hn). destruct (holds (st_condition s) (vs_atoms vs)); [|exact H4]. destruct H4 as (i0 & i & Ht & Hn' & Ei & Ha). injection Ei as <-. exists i0. auto.
Qed.
(** Find. *)
Lemma find_loop_spec ident atoms l : forall prev res, find_loop ident atoms prev l = Ok res ->
  (forall d, prev = Some d -> res = Some d) /\
  (forall k v s, nth_error l k = Some (v, s) -> holds (st_condition s) atoms = true -> exists d, res = Some d /\ position (fun i => String.eqb ident (it_name i)) (st_stack s) = Some d).
Proof.
  induction l as [|[v s] l IH]; intros prev res E; cbn [find_loop] in E; [injection E as <-; split; [auto|]; intros [|k] ? ?; discriminate|].
  destruct (holds (st_condition s) atoms) eqn:Eh.
  - destruct (position _ (st_stack s)) as [d|] eqn:Ep; [|discriminate]. assert (find_loop ident atoms (Some d) l = Ok res /\ (forall d', prev = Some d' -> d' = d)) as (E' & Hprev).
    { destruct prev as [d'|]; [|split; [exact E|discriminate]]. destruct (Nat.eqb_spec d' d) as [->|]; [|discriminate]. split; [exact E|]. intros ? H. injection H as <-. reflexivity. }
    destruct (IH _ _ E') as (H1 & H2). specialize (H1 d eq_refl). split; [intros d' Hd; rewrite (Hprev d' Hd); exact H1|]. intros [|k] v' s' Hk Hh; cbn [nth_error] in Hk; [injection Hk as <- <-; exists d; auto|]. exact (H2 k v' s' Hk Hh).
  - destruct (IH _ _ E) as (H1 & H2). split; [exact H1|]. intros [|k] v' s' Hk Hh; cbn [nth_error] in Hk; [injection Hk as <- <-; congruence|]. exact (H2 k v' s' Hk Hh).
Qed.
Lemma find_own ident vs d k v s : vs_find ident vs = Ok d -> nth_error (vs_states vs) k = Some (v, s) -> holds_in vs s -> position (fun i => String.eqb ident (it_name i)) (st_stack s) = Some d.
Proof.
  unfold vs_find. intros E Hk Hh. destruct (find_loop ident (vs_atoms vs) None (vs_states vs)) as [res| |] eqn:El; try discriminate. cbn [obind] in E. destruct res as [d'|]; [|discriminate]. injection E as <-.
  destruct (find_loop_spec _ _ _ _ _ El) as (_ & H). destruct (H k v s Hk Hh) as (d & Ed & Hp). injection Ed as ->. exact Hp.
Qed.
