(** Lemmas for C57: inputs and whole scripts. *)
From Verif Require Import Base BaseLemmas Spec_Encoding Model_Integer Model_ByteArray Model_Opcode Model_Script Model_Behavior Model_Macro Spec_Script Spec_Macro Proofs_Integer Proofs_Script Proofs_Macro Proofs_Macro2 Proofs_Macro3 Proofs_Macro4 Proofs_Macro5 Proofs_Macro6 Proofs_Macro7
  Spec_Network Proofs_Network Proofs_Network2 Spec_Behavior Proofs_Behavior Spec_MacroRun Proofs_MacroRun Model_Mock Model_MacroType Spec_MacroType Proofs_MacroType Proofs_MacroType2 Proofs_MacroType3 Proofs_MacroType4 Proofs_MacroType5 Proofs_MacroType6 Proofs_MacroType7.
Local Open Scope string_scope.
Local Open Scope list_scope.
Local Open Scope Z_scope.

Lemma tpush_variant_spec v i l : forall l', tpush_variant v i l = Ok l' -> NoDup (map fst l) -> map fst l' = map fst l /\
  forall k w s, nth_error l k = Some (w, s) -> nth_error l' k = Some (w, if String.eqb v w then twith_stack s false (i :: ts_stack s) else s).
Proof.
  induction l as [|[w s] l IH]; intros l' E Hn; cbn [tpush_variant] in E; [discriminate|]. cbn [map fst] in Hn. inversion Hn as [|? ? Hnin Hn']; subst. destruct (String.eqb_spec w v) as [->|Hw].
  - injection E as <-. split; [reflexivity|]. intros [|k] x t Hk; cbn [nth_error] in *; [injection Hk as <- <-; now rewrite String.eqb_refl|]. rewrite Hk. do 2 f_equal. destruct (String.eqb_spec v x) as [->|]; [|reflexivity]. exfalso. apply Hnin. apply nth_error_In in Hk. now apply (in_map fst) in Hk.
  - destruct (tpush_variant v i l) as [r'| |] eqn:Er; try discriminate. cbn [obind] in E. injection E as <-. destruct (IH r' eq_refl Hn') as (A & C). split; [cbn [map fst]; now rewrite A|].
    intros [|k] x t Hk; cbn [nth_error] in *; [|now apply C]. injection Hk as <- <-. destruct (String.eqb_spec v w); [congruence|reflexivity].
Qed.
Lemma tpush_variants_spec enum i vs : forall l l', tpush_variants enum vs i l = Ok l' -> NoDup (map fst l) -> map fst l' = map fst l /\
  forall k w s, nth_error l k = Some (w, s) -> nth_error l' k = Some (w, twith_stack s false (repeat i (occurrences w vs) ++ ts_stack s)).
Proof.
  induction vs as [|v vs IH]; intros l l' E Hn; cbn [tpush_variants] in E.
  - injection E as <-. split; [reflexivity|]. intros k w s Hk. rewrite Hk. destruct s; reflexivity.
  - destruct (tpush_variant v i l) as [l1| |] eqn:E1; try discriminate. cbn [obind] in E. destruct enum; [|discriminate]. destruct (tpush_variant_spec _ _ _ _ E1 Hn) as (A & C). destruct (IH _ _ E ltac:(now rewrite A)) as (A' & C'). split; [congruence|].
    intros k w s Hk. rewrite (C' _ _ _ (C _ _ _ Hk)). do 2 f_equal. unfold occurrences. cbn [filter]. rewrite String.eqb_sym. destruct (String.eqb w v); [|reflexivity].
    cbn [length repeat]. unfold twith_stack. cbn [ts_condition ts_stack ts_alt]. f_equal. rewrite repeat_cons, <- app_assoc. reflexivity.
Qed.
Definition pushed_types (i : script_input) (t : rty) (v : string) : list rty := match in_variants i with None => [t] | Some vs => repeat t (occurrences v vs) end.
Lemma one_input enum i vs vs' : (let it := TItem (Item (in_ident i) false None) (in_ident i) in
    match in_variants i with Some names => do l <- tpush_variants enum names it (tv_states vs); Ok (TVStates l (tv_atoms vs)) | None => Ok (tv_push false it vs) end) = Ok vs' ->
  tv_atoms vs = [] -> NoDup (map fst (tv_states vs)) ->
  tv_atoms vs' = [] /\ map fst (tv_states vs') = map fst (tv_states vs) /\ forall k w s t, nth_error (tv_states vs) k = Some (w, s) ->
    nth_error (tv_states vs') k = Some (w, twith_stack s false (repeat (TItem (Item (in_ident i) false None) (in_ident i)) (length (pushed_types i t w)) ++ ts_stack s)).
Proof.
  cbv zeta. unfold pushed_types. intros E Ha Hn. destruct (in_variants i) as [names|].
  - destruct (tpush_variants _ _ _ _) as [l| |] eqn:El; try discriminate. cbn [obind] in E. injection E as <-. cbn [tv_atoms tv_states]. split; [exact Ha|]. destruct (tpush_variants_spec _ _ _ _ _ El Hn) as (A & C). split; [exact A|]. intros k w s t Hk. rewrite repeat_length. now apply C.
  - injection E as <-. cbn [tv_atoms tv_push tv_states]. split; [exact Ha|]. split; [rewrite map_map; apply map_ext; now intros [v s]|]. intros k w s t Hk. rewrite (map_nth_error _ _ _ Hk). rewrite Ha, holds_start. reflexivity.
Qed.
Lemma typed_repeat G x t (l : list rty) vals gn n : lookup G x = Some t -> Forall (fun u => u = t) l -> Forall2 has l vals -> n = None -> Forall2 (item_typed G) (repeat (TItem (Item x gn n) x) (length l)) (rev vals).
Proof.
  intros L F H ->. assert (K : Forall (has t) vals). { revert F. induction H as [|u w l vals Hu _ IH]; intros F; constructor; inversion F; subst; auto. }
  rewrite (Forall2_length _ _ _ H), <- (rev_length vals). apply Forall_rev in K. clear H F. induction K as [|w r Hw _ IH]; cbn [length repeat]; constructor; [|exact IH]. split; [exists t; auto|]. intros z Hz. discriminate Hz.
Qed.
Lemma inputs_typed enum ins : forall tys vs vs' G G', trun_inputs enum ins vs = Ok vs' -> length tys = length ins -> check_lines G (input_lines ins tys) = Some G' -> never_lowers G (input_lines ins tys) -> tv_atoms vs = [] -> NoDup (map fst (tv_states vs)) ->
  tv_atoms vs' = [] /\ map fst (tv_states vs') = map fst (tv_states vs) /\
  forall k w s main values, nth_error (tv_states vs) k = Some (w, s) -> Forall2 (item_typed G) (ts_stack s) main -> Forall2 has (concat (map (fun p => pushed_types (fst p) (snd p) w) (combine ins tys))) values ->
  exists s', nth_error (tv_states vs') k = Some (w, s') /\ ts_condition s' = ts_condition s /\ ts_alt s' = ts_alt s /\ Forall2 (item_typed G') (ts_stack s') (rev values ++ main).
Proof.
  induction ins as [|i ins IH]; intros [|t tys] vs vs' G G' E L C N Ha Hn; try discriminate L.
  - cbn in E. injection E as <-. cbn in C. injection C as <-. split; [exact Ha|]. split; [reflexivity|]. intros k w s main values Hk HR Hv. cbn in Hv. inversion Hv; subst. exists s. auto.
  - cbn [trun_inputs] in E. match type of E with context [obind ?x _] => destruct x as [vs1| |] eqn:E1; try discriminate end. cbn [obind] in E. destruct (one_input _ _ _ _ E1 Ha Hn) as (A1 & B1 & D1).
    change (input_lines (i :: ins) (t :: tys)) with ([LLet (in_ident i) (Some t)] ++ input_lines ins tys) in C, N. apply check_app in C. destruct C as (G1 & C1 & C2). apply never_app in N. destruct N as (N1 & N2). specialize (N2 G1 C1). pose proof (never_raises _ _ _ N1 C1) as R. cbn [check_lines check_line] in C1. injection C1 as C1.
    destruct (IH tys vs1 vs' G1 G' E ltac:(now injection L) C2 N2 A1 ltac:(now rewrite B1)) as (A & B & D). split; [exact A|]. split; [congruence|].
    intros k w s main values Hk HR Hv. cbn [combine map concat fst snd] in Hv. apply F2_app_l in Hv. destruct Hv as (va & vb & -> & Hva & Hvb).
    assert (T1 : Forall2 (item_typed G1) (repeat (TItem (Item (in_ident i) false None) (in_ident i)) (length (pushed_types i t w)) ++ ts_stack s) (rev va ++ main)).
    { apply Forall2_app; [|eapply items_raised; eassumption]. apply (typed_repeat G1 (in_ident i) t); [subst G1; cbn; now rewrite String.eqb_refl| |exact Hva|reflexivity].
      unfold pushed_types. destruct (in_variants i); [|now repeat constructor]. apply Forall_forall. intros u Hu. now apply repeat_spec in Hu. }
    destruct (D k w _ (rev va ++ main) vb (D1 k w s t Hk)) as (s' & Hk' & Cs & As & Ts); [destruct s; exact T1|exact Hvb|]. exists s'. split; [exact Hk'|]. split; [destruct s; exact Cs|]. split; [destruct s; exact As|]. now rewrite rev_app_distr, <- app_assoc.
Qed.
Lemma tinitial_variants m : map fst (tinitial_states m) = map fst (variants m) /\ forall k v p, nth_error (variants m) k = Some (v, p) -> nth_error (tinitial_states m) k = Some (v, TState p [] []).
Proof.
  unfold tinitial_states, variants. destruct (ms_variants m) as [|x l] eqn:E.
  - split; [reflexivity|]. intros [|k] v p Hk; cbn in Hk; [injection Hk as <- <-; reflexivity|destruct k; discriminate].
  - clear E. generalize (x :: l). clear x l. intros l. split; [rewrite map_map; apply map_ext; now intros [v p]|]. intros k v p Hk. rewrite (map_nth_error _ _ _ Hk). reflexivity.
Qed.
Lemma script_typed E type_of m tys g code lines G sigma v p values co :
  trun_script type_of m tys = Ok (g, code, lines) -> length tys = length (ms_inputs m) -> check_lines [] lines = Some G -> never_lowers [] lines ->
  Forall proper (ms_stmts m) -> variants_ok m -> script_talong type_of m tys -> In (v, p) (variants m) -> satisfies sigma p -> Forall2 has (variant_types m tys v) values ->
  exists s, In (v, s) (tv_states (tg_vs g)) /\ tsafe E sigma code (fun m' => Forall2 (item_typed G) (ts_stack s) (m_main m') /\ Forall2 (item_typed G) (ts_alt s) (m_alt m') /\ m_exec m' = []) (Machine (rev values) [] [] co).
Proof.
  intros E0 L C N Hp Nd Ha Hv Hs HT. unfold trun_script in E0. destruct (trun_inputs (has_variants m) (ms_inputs m) (TVStates (tinitial_states m) [])) as [vs| |] eqn:Ei; try discriminate. cbn [obind] in E0.
  destruct (trun_stmts type_of (ms_stmts m) (TGen vs 0)) as [[[g' c'] l']| |] eqn:Es; try discriminate. cbn [obind fst snd] in E0. injection E0 as <- <- <-. apply check_app in C. destruct C as (G1 & C1 & C2). apply never_app in N. destruct N as (N1 & N2). specialize (N2 G1 C1).
  destruct (tinitial_variants m) as (Hf & Hinit). destruct (inputs_typed _ _ _ _ _ _ _ Ei L C1 N1 eq_refl) as (A & B & D); [cbn [tv_states]; now rewrite Hf|]. apply In_nth_error in Hv. destruct Hv as (k & Hk). cbn [tv_states] in D.
  destruct (D k v _ [] values (Hinit k v p Hk) (Forall2_nil _) HT) as (s0 & Hk0 & Cs0 & As0 & T0). rewrite app_nil_r in T0. cbn [ts_condition ts_alt] in Cs0, As0.
  pose proof (stmts_ttracked type_of E sigma _ Hp _ _ _ _ _ _ Es C2 N2 (Ha vs G1 Ei C1)) as T. pose proof (stmts_kept _ _ _ _ (ok_stmts _ _ _ _ _ _ Es)) as K. destruct (tkept_nth _ _ k v s0 K Hk0) as (s & Hks & _).
  exists s. split; [now apply nth_error_In in Hks|]. rewrite <- (app_nil_r c'). apply (T k v s0 s Hk0 Hks); [now rewrite Cs0|cbn [tg_vs]; rewrite A; intros a []|split; [exact T0|rewrite As0; constructor]|reflexivity|].
  intros m' a' co' (R1 & R2). cbn [tsafe m_main m_alt m_exec]. auto.
Qed.
