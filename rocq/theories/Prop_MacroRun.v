(** C53: executed by the network, the script generated by the macro does what the macro's tracker says. *)
From Verif Require Import Base BaseLemmas Spec_Encoding Model_Encoding Model_ByteArray Proofs_ByteArray Model_Opcode Model_Script Model_Code Model_Behavior Model_Macro Spec_Script Proofs_Script Spec_Macro Spec_Network Proofs_Network2 Proofs_Network3
  Spec_MacroRun Proofs_MacroRun Prop_OffChain Prop_Macro2.
Local Open Scope string_scope.
Local Open Scope list_scope.
Local Open Scope Z_scope.

(** At every point of every execution: the network's stacks, with the author's names put on them, are as the macro promises, unless a conditional went against the valuation. *)
Theorem C53_every_point : forall E m g code v p sigma main bs,
  run_script m = Ok (g, code) -> script_clean m -> script_along coherent m -> In (v, p) (variants m) -> satisfies sigma p ->
  map r_label main = rev (map Some (variant_pushes m v)) -> Forall pushes code -> script_ser_ops (script_from_ops (map op_of code)) = Ok bs ->
  exists s l, In (v, s) (vs_states (g_vs g)) /\ decodes (ba_data bs) l /\ codes code l /\
  let start := Machine (map r_value main) [] [] (ba_data bs) in
  forall l' m', visits E (l, start) (l', m') ->
  (exists rest c, reaches sigma (code, Config main [] []) (rest, c) /\ codes rest l' /\ shows c m' /\ promised s rest c) \/ diverted E sigma code main l start.
Proof.
  intros E m g code v p sigma main bs R Hc Ha Hv Hs Hm P S. assert (RC := script_real _ _ _ R). unfold script_ser_ops in S. rewrite ops_of_from in S.
  destruct (serialize_ops (map op_of code)) as [a| |] eqn:S'; try discriminate S. apply Ok_inj in S. subst a. destruct (script_codes _ _ RC P S') as (l & D & C & _).
  destruct (C39_tracks m g code v p sigma main R Hc Ha Hv Hs Hm) as (s & Hin & F). exists s, l. split; [exact Hin|]. split; [exact D|]. split; [exact C|]. cbv zeta. intros l' m' V.
  destruct (lift_run E sigma _ _ V code (Config main [] []) RC P C ltac:(repeat split)) as [(rest & c & Re & C' & S2)|(e & rest & c & z & Re & Vz & C' & S2 & A)].
  - left. exists rest, c. split; [exact Re|]. split; [exact C'|]. split; [exact S2|]. specialize (F rest c Re). destruct rest as [|e rest]; [exact F|apply F].
  - right. exists e, rest, c, z. auto.
Qed.
Print Assumptions C53_every_point.

(** A completed execution leaves the stack the macro has for the variant: as many items, with those names. *)
Theorem C53_final_stack : forall E m g code v p sigma main bs final,
  run_script m = Ok (g, code) -> script_clean m -> script_along coherent m -> In (v, p) (variants m) -> satisfies sigma p ->
  map r_label main = rev (map Some (variant_pushes m v)) -> Forall pushes code -> script_ser_ops (script_from_ops (map op_of code)) = Ok bs ->
  executes E (ba_data bs) (map r_value main) final ->
  exists s l, In (v, s) (vs_states (g_vs g)) /\ decodes (ba_data bs) l /\
  ((exists items, map r_value items = final /\ map r_label items = map label_of (st_stack s)) \/ diverted E sigma code main l (Machine (map r_value main) [] [] (ba_data bs))).
Proof.
  intros E m g code v p sigma main bs final R Hc Ha Hv Hs Hm P S X. destruct (C53_every_point E m g code v p sigma main bs R Hc Ha Hv Hs Hm P S) as (s & l & Hin & D & C & F). cbv zeta in F. exists s, l. split; [exact Hin|]. split; [exact D|].
  assert (B : bytes_ok (ba_data bs)).
  { unfold script_ser_ops in S. rewrite ops_of_from in S. destruct (serialize_ops (map op_of code)) as [a| |] eqn:S'; try discriminate S. apply Ok_inj in S. subst a. destruct (script_codes _ _ (script_real _ _ _ R) P S') as (_ & _ & _ & B). exact B. }
  apply (executes_iff _ _ _ _ _ B D) in X. destruct X as (_ & _ & mm & St & _ & M). apply steps_visits in St.
  destruct (F _ _ St) as [(rest & c & Re & C' & (S1 & _ & _) & Pr)|Dv]; [left|right; exact Dv]. inversion C'. subst rest. destruct Pr as (_ & L & _). exists (c_main c). split; [congruence|exact L].
Qed.
Print Assumptions C53_final_stack.

(** Without conditionals there is nothing to go against. *)
Theorem C53_straight : forall E m g code v p main bs final,
  run_script m = Ok (g, code) -> script_clean m -> script_along coherent m -> In (v, p) (variants m) -> (exists sigma, satisfies sigma p) ->
  map r_label main = rev (map Some (variant_pushes m v)) -> Forall pushes code -> script_ser_ops (script_from_ops (map op_of code)) = Ok bs ->
  Forall (fun e => em_op e <> EmCode OP_IF) code -> executes E (ba_data bs) (map r_value main) final ->
  exists s items, In (v, s) (vs_states (g_vs g)) /\ map r_value items = final /\ map r_label items = map label_of (st_stack s).
Proof.
  intros E m g code v p main bs final R Hc Ha Hv (sigma & Hs) Hm P S NI X. destruct (C53_final_stack E m g code v p sigma main bs final R Hc Ha Hv Hs Hm P S X) as (s & l & Hin & _ & [(items & V & L)|(e & rest & c & z & Re & _ & _ & _ & (A & _))]).
  - exists s, items. auto.
  - exfalso. assert (I : In e code). { clear -Re. remember (code, Config main [] []) as x eqn:Q. remember (e :: rest, c) as y eqn:Q2. assert (K : forall e, In e (fst y) -> In e (fst x)). { clear Q Q2. induction Re as [|e0 r c0 c1 y MS Re IH]; intros e1 I1; [exact I1|]. right. apply IH, I1. }
      subst x y. apply K. left. reflexivity. }
    rewrite Forall_forall in NI. exact (NI e I A).
Qed.
Print Assumptions C53_straight.

(** The input script pushes the author's inputs: names and values. *)
Theorem C53_inputs : forall E m v (values : list (string * op)) bs stack,
  map fst values = variant_pushes m v -> Forall push_op (map snd values) -> script_ser_ops (script_from_ops (map snd values)) = Ok bs -> executes E (ba_data bs) [] stack ->
  push_only (ba_data bs) /\
  exists main, map r_value main = stack /\ map r_label main = rev (map Some (variant_pushes m v)) /\ Forall2 (fun x i => r_label i = Some (fst x) /\ pushes_data (snd x) (r_value i)) values (rev main).
Proof.
  intros E m v values bs stack N P S X. unfold script_ser_ops in S. rewrite ops_of_from in S. assert (O : Forall op_ok (map snd values)) by (eapply Forall_impl; [|exact P]; intros o H; apply H).
  destruct (ser_ops_ok _ O) as (a & ch & is & S' & D & FC & FM & _ & B). rewrite S' in S. apply Ok_inj in S. subst a.
  assert (DL : exists ds, is = map Push ds /\ Forall2 pushes_data (map snd values) ds).
  { clear -FM P. induction FM as [|o i ops is M _ IH]; [exists []; split; [reflexivity|constructor]|]. inversion P as [|? ? [_ PO] P']; subst. destruct (IH P') as (ds & -> & F).
    assert (exists d, i = Push d) as (d & ->) by (destruct o; try contradiction; inversion M; eauto). exists (d :: ds). split; [reflexivity|]. constructor; assumption. }
  destruct DL as (ds & -> & FD). set (l := combine ch (map Push ds)).
  assert (L : length ch = length ds) by (rewrite (Forall2_len _ _ _ FC); apply map_length).
  assert (Fl : forall (c0 d0 : list (list Z)), length c0 = length d0 -> map fst (combine c0 (map Push d0)) = c0) by (induction c0 as [|c c0 IH]; intros [|d d0] Q; cbn in *; try discriminate; try reflexivity; f_equal; apply IH; lia).
  assert (Pl : forall (c0 d0 : list (list Z)), length c0 = length d0 -> pushed (combine c0 (map Push d0)) = d0) by (induction c0 as [|c c0 IH]; intros [|d d0] Q; cbn in *; try discriminate; try reflexivity; f_equal; apply IH; lia).
  assert (Dc : decodes (ba_data bs) l). { split; [rewrite D; unfold l; now rewrite Fl|]. unfold l. clear -FC. remember (map Push ds) as is. clear Heqis. induction FC; cbn; constructor; auto. }
  assert (Po : Forall (fun c => exists d, snd c = Push d) l). { unfold l. clear. revert ds. induction ch as [|c ch IH]; intros [|d ds]; cbn; constructor; [eexists; reflexivity|apply IH]. }
  split; [exists l; auto|]. apply (executes_iff _ _ _ _ _ B Dc) in X. destruct X as (_ & _ & mm & St & _ & M). apply (steps_pushes _ _ Po) in St; [|reflexivity]. destruct St as (St & _). cbn [m_main] in St. rewrite app_nil_r in St. unfold l in St. rewrite Pl in St by exact L.
  exists (rev (map (fun x => RItem (Some (fst (fst x))) (snd x)) (combine values ds))). assert (Lv : length values = length ds) by (rewrite <- (map_length snd values); apply (Forall2_len _ _ _ FD)).
  split; [|split].
  - rewrite map_rev, map_map. cbn [r_value]. rewrite <- M, St. f_equal. clear -Lv. revert ds Lv. induction values as [|x vs IH]; intros [|d ds] Q; cbn in *; try discriminate; try reflexivity. f_equal. apply IH. lia.
  - rewrite map_rev, map_map. cbn [r_label]. rewrite <- N. f_equal. clear -Lv. revert ds Lv. induction values as [|x vs IH]; intros [|d ds] Q; cbn in *; try discriminate; try reflexivity. f_equal. apply IH. lia.
  - rewrite rev_involutive. clear -FD. revert ds FD. induction values as [|x vs IH]; intros ds FD; inversion FD; subst; cbn; constructor; auto.
Qed.
Print Assumptions C53_inputs.
(** Input script, then generated script: the macro's picture of the final stack is right. *)
Theorem C53_end_to_end : forall E m g code v p sigma (values : list (string * op)) unlock lock stack final,
  run_script m = Ok (g, code) -> script_clean m -> script_along coherent m -> In (v, p) (variants m) -> satisfies sigma p ->
  map fst values = variant_pushes m v -> Forall push_op (map snd values) -> script_ser_ops (script_from_ops (map snd values)) = Ok unlock ->
  Forall pushes code -> script_ser_ops (script_from_ops (map op_of code)) = Ok lock ->
  executes E (ba_data unlock) [] stack -> executes E (ba_data lock) stack final ->
  exists s main l, In (v, s) (vs_states (g_vs g)) /\ Forall2 (fun x i => r_label i = Some (fst x) /\ pushes_data (snd x) (r_value i)) values (rev main) /\ decodes (ba_data lock) l /\
  ((exists items, map r_value items = final /\ map r_label items = map label_of (st_stack s)) \/ diverted E sigma code main l (Machine stack [] [] (ba_data lock))).
Proof.
  intros E m g code v p sigma values unlock lock stack final R Hc Ha Hv Hs N PV SU P SL XU XL. destruct (C53_inputs E m v values unlock stack N PV SU XU) as (_ & main & V & L & F). rewrite <- V in XL.
  destruct (C53_final_stack E m g code v p sigma main lock final R Hc Ha Hv Hs L P SL XL) as (s & l & I & D & C). exists s, main, l. split; [exact I|]. split; [exact F|]. split; [exact D|]. rewrite <- V. exact C.
Qed.
Print Assumptions C53_end_to_end.

(** No opcode of the generated script finds too few items. *)
Lemma enough_items k b s a : enough k s a -> opcode_behavior k = Ok b -> (length (b_input_types b) <= length s)%nat.
Proof.
  unfold enough. intros H B. destruct (is_shuffle k) eqn:SH.
  - destruct k; try discriminate SH; cbn [opcode_behavior] in B; apply Ok_inj in B; subst b; cbn [b_input_types length]; do 6 (try (destruct s as [|? s]; [exfalso; apply H; reflexivity|])); cbn [length]; lia.
  - assert (G : (exists n m, arity k = Some (n, m) /\ (n <= length s)%nat) -> (length (b_input_types b) <= length s)%nat) by (intros (n & m & A & L); destruct (Proofs_Macro3.arity_table _ _ _ A) as (b' & B' & L' & _); rewrite B in B'; apply Ok_inj in B'; subst b'; lia).
    destruct k; try (apply G; exact H); try discriminate B; cbn [opcode_behavior opcode_is_disabled] in B; apply Ok_inj in B; subst b; cbn [b_input_types length]; try lia; try (destruct s; [contradiction|cbn [length]; lia]); try (destruct H as (i & r & d & -> & _ & _); cbn [length]; lia).
Qed.
Theorem C53_no_underflow : forall E m g code v p sigma main bs,
  run_script m = Ok (g, code) -> script_clean m -> script_along coherent m -> In (v, p) (variants m) -> satisfies sigma p ->
  map r_label main = rev (map Some (variant_pushes m v)) -> Forall pushes code -> script_ser_ops (script_from_ops (map op_of code)) = Ok bs ->
  exists l, decodes (ba_data bs) l /\
  let start := Machine (map r_value main) [] [] (ba_data bs) in
  forall b k r m' beh, visits E (l, start) ((b, Exec (opcode_u8 k)) :: r, m') -> 0x61 <= opcode_u8 k -> Forall (fun x => x = true) (m_exec m') -> opcode_behavior k = Ok beh ->
  ((length (b_input_types beh) <= length (m_main m'))%nat /\ (k = OP_FROMALTSTACK -> m_alt m' <> []) /\ (k = OP_ELSE \/ k = OP_ENDIF -> m_exec m' <> [])) \/ diverted E sigma code main l start.
Proof.
  intros E m g code v p sigma main bs R Hc Ha Hv Hs Hm P S. destruct (C53_every_point E m g code v p sigma main bs R Hc Ha Hv Hs Hm P S) as (s & l & Hin & D & C & F). cbv zeta in F. exists l. split; [exact D|]. cbv zeta. intros b k r m' beh V K X B.
  destruct (F _ _ V) as [(rest & c & Re & C' & (S1 & S2 & S3) & Pr)|Dv]; [left|right; exact Dv]. inversion C' as [|e ? rest' ? [_ Me] _]; subst. cbn [snd] in Me. cbn [promised] in Pr. destruct Pr as [G1 G2].
  assert (EC : em_op e = EmCode k).
  { assert (PE : pushes e). { assert (IN : In e code). { clear -Re. remember (code, Config main [] []) as x eqn:Q. remember (e :: rest', c) as y eqn:Q2. assert (K : forall e, In e (fst y) -> In e (fst x)). { clear Q Q2. induction Re as [|e0 r c0 c1 y MS Re IH]; intros e1 I1; [exact I1|]. right. apply IH, I1. } subst x y. apply K. left. reflexivity. }
      rewrite Forall_forall in P. now apply P. }
    unfold op_of in Me. unfold pushes in PE. destruct (em_op e) as [k'|o|n].
    - f_equal. apply opcode_u8_inj. inversion Me; congruence.
    - destruct o; try (destruct PE as [_ []]); inversion Me.
    - inversion Me. }
  assert (A : Spec_Macro.active c = true). { unfold Spec_Macro.active. rewrite S3. apply forallb_forall. intros x0 I. rewrite Forall_forall in X. now apply X. }
  specialize (G2 A). unfold good_op in G2. rewrite EC in G2. destruct G2 as [G2 _]. rewrite <- S1, <- S2, <- S3, map_length. split; [eapply enough_items; eassumption|]. split.
  - intros ->. cbn in G2. intros N. apply map_eq_nil in N. contradiction.
  - intros K'. apply G1. rewrite EC. destruct K' as [->| ->]; auto.
Qed.
Print Assumptions C53_no_underflow.

(** Non-trivial instance: variant B of [ex_script] (conditional, alt stack, depth_of/OP_PICK) executed by the network. *)
Definition ex_instrs : list (list Z * instr) :=
  map (fun b => ([b], if b =? 0x51 then Push [1] else Exec b)) [0x63; 0x7e; 0x67; 0xa8; 0x68; 0x6b; 0x51; 0x6c; 0x51; 0x79; 0x87].
Example C53_nonvacuous : exists g code bs s,
  run_script ex_script = Ok (g, code) /\ script_clean ex_script /\ script_along coherent ex_script /\ In ("B", [[Atom "c" false]]) (variants ex_script) /\ satisfies (fun _ => false) [[Atom "c" false]] /\
  map r_label (ritems [("c", []); ("x", [7])]) = rev (map Some (variant_pushes ex_script "B")) /\ Forall pushes code /\ script_ser_ops (script_from_ops (map op_of code)) = Ok bs /\
  executes ex_env (ba_data bs) (map r_value (ritems [("c", []); ("x", [7])])) [[]; [1]] /\ In ("B", s) (vs_states (g_vs g)) /\ map label_of (st_stack s) = [None; Some "k"].
Proof.
  do 4 eexists. split; [vm_compute; reflexivity|]. split; [exact ex_clean|]. split; [exact ex_coherent|]. split; [right; left; reflexivity|]. split; [right; eexists; split; [left; reflexivity|]; intros a [<-|[]]; reflexivity|]. split; [reflexivity|].
  split; [repeat (apply Forall_cons || apply Forall_nil); cbn [pushes em_op op_ok]; try exact Logic.I; unfold Spec_Integer.script_int; change (2 ^ 31) with 2147483648; try split; try exact Logic.I; lia|]. split; [vm_compute; reflexivity|]. split.
  - exists ex_instrs. eexists. split.
    + split; [reflexivity|]. unfold ex_instrs. cbn [map]. repeat (apply Forall_cons || apply Forall_nil); cbn [fst snd Z.eqb Pos.eqb]; first [apply (CkSmall 1); lia|apply CkExec; lia].
    + split; [vm_compute; discriminate|]. split; [vm_compute; discriminate|]. split; [vm_compute; reflexivity|]. split; reflexivity.
  - split; [right; left; reflexivity|]. reflexivity.
Qed.
Print Assumptions C53_nonvacuous.
