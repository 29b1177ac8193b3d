(** C39: the number [depth_of] and [depth_of_offset] push. *)
From Verif Require Import Base BaseLemmas Model_Integer Proofs_Integer Model_ByteArray Model_Opcode Model_Script Model_Macro Spec_Macro Proofs_Macro2 Spec_Depth.
Local Open Scope string_scope.
Local Open Scope list_scope.
Local Open Scope Z_scope.

(** The op generated is the push of depth + offset, the depth being that of the topmost item of that name in every
    variant that is possible there. *)
Lemma position_topmost ident s d : position (fun i => String.eqb ident (it_name i)) (st_stack s) = Some d -> topmost ident s d.
Proof.
  unfold topmost. generalize (st_stack s). intros l. revert d. induction l as [|a l IH]; intros d E; [discriminate|]. cbn [position] in E. destruct (String.eqb_spec ident (it_name a)) as [H|H].
  - injection E as <-. split; [exists a; auto|]. intros j i Hj. lia.
  - destruct (position _ l) as [n|]; [|discriminate]. injection E as <-. destruct (IH n eq_refl) as [(i & H1 & H2) K]. split; [exists i; auto|].
    intros [|j] x Hj Hx; cbn in Hx; [injection Hx as <-; congruence|]. apply (K j x); [lia|exact Hx].
Qed.
Theorem C39_depth_number : forall o g g' code ident offset,
  (os_ident o = "depth_of" /\ os_inputs o = Some [InIdent ident] /\ offset = 0 \/ exists e, os_ident o = "depth_of_offset" /\ os_inputs o = Some [InIdent ident; InExpr e offset]) ->
  run_opcode o g = Ok (g', code) ->
  exists d e, code = [e] /\ em_op e = EmNumber (Z.of_nat d + offset) /\ forall s, possible g s -> topmost ident s d.
Proof.
  intros o g g' code ident offset Ho E. assert (run_depth_of o g ident offset = Ok (g', code)) as R.
  { unfold run_opcode in E. destruct Ho as [(H1 & H2 & ->)|(e & H1 & H2)]; rewrite H1 in E.
    - change (opcode_by_name "depth_of") with (@None opcode) in E. cbv iota in E. unfold run_opcode_function in E. rewrite H1, H2 in E. exact E.
    - change (opcode_by_name "depth_of_offset") with (@None opcode) in E. cbv iota in E. unfold run_opcode_function in E. rewrite H1, H2 in E. exact E. }
  unfold run_depth_of in R. apply obind_ok in R. destruct R as (d & Ed & R). destruct (match os_outputs o with Some [n] => (n, g) | _ => make_ident g end) as [name g1].
  apply obind_ok in R. destruct R as (k & Ek & R). assert (k = Z.of_nat d) as -> by (apply integer_new_inv in Ek; lia).
  injection R as _ <-. exists d. eexists. split; [reflexivity|]. split; [reflexivity|]. intros s (v & Hin & Hh). apply position_topmost. destruct (In_nth_error _ _ Hin) as (j & Hj). exact (find_own _ _ _ _ _ _ Ed Hj Hh).
Qed.
Print Assumptions C39_depth_number.
Example C39_depth_number_nonvacuous :
  let g := Gen (VStates [("", State [] [Item "c" false None; Item "b" false None; Item "a" false None] [])] []) 0 in
  exists g' code, run_opcode (OpcodeStmt "depth_of_offset" (Some [InIdent "a"; InExpr "5" 5]) None) g = Ok (g', code) /\ map em_op code = [EmNumber 7].
Proof. cbv zeta. do 2 eexists. split; vm_compute; reflexivity. Qed.
