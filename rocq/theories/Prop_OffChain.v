(** C51: what is computed off-chain with the library's integers and byte arrays is what the script computes on-chain. *)
From Verif Require Import Base BaseLemmas Model_Encoding Spec_Encoding Proofs_Encoding Model_Integer Spec_Integer Proofs_Integer Model_ByteArray Proofs_ByteArray Model_Hash Model_Opcode Model_Script Spec_Script Proofs_Script
  Spec_Network Proofs_Network Proofs_Network2 Proofs_Network3 Spec_OffChain Proofs_OffChain Proofs_OffChain2 Model_Code.
Local Open Scope list_scope.
Local Open Scope Z_scope.

Lemma ops_of_from ops : map t_op (script_from_ops ops) = ops.
Proof. unfold script_from_ops. rewrite map_map. cbn [tagged_from_op t_op]. apply map_id. Qed.
Lemma lines_ser ops : Forall line_op ops -> exists bs, script_ser_ops (script_from_ops ops) = Ok bs /\ serialize_ops ops = Ok bs.
Proof.
  intros F. destruct (ser_ops_ok ops) as (a & _ & _ & S & _). { eapply Forall_impl; [|exact F]. exact line_op_ok. }
  exists a. split; [|exact S]. unfold script_ser_ops. rewrite ops_of_from, S. reflexivity.
Qed.

(** Integers.  Whenever the Rust expression has a value, the script leaves that value's (unique minimal) encoding; whenever the script
    succeeds and leaves a number, the Rust expression has that value. *)
Theorem C51_integers : forall E e s, digests_ok E -> lits_i e -> exists bs, script_ser_ops (script_from_ops (script_i e)) = Ok bs /\
  (limits (script_i e) (ba_data bs) s -> forall n, off_i E e = Ok n -> fits_i E e -> executes E (ba_data bs) s (enc n :: s)) /\
  (guarded_i e -> forall s', executes E (ba_data bs) s s' -> exists v, s' = v :: s /\ fits_i E e /\ forall n, num v = Some n -> off_i E e = Ok n).
Proof.
  intros E e s HD L. destruct script_lines as [SL _]. destruct (lines_ser _ (SL e L)) as (bs & S & S'). exists bs. split; [exact S|]. split.
  - intros (A & B & C) n O F. apply (line_executes E _ _ (SL e L) S'). split; [exact A|]. split; [exact B|]. destruct (fwd E (ba_data bs) HD) as [FI _]. rewrite (enc_int n (off_i_range _ _ _ O)). exact (FI e L n s O F C).
  - intros G s' X. apply (line_executes E _ _ (SL e L) S') in X. destruct X as (_ & _ & R). destruct (bwd E (ba_data bs) HD) as [FI _]. destruct (FI e L G s s' R) as (v & -> & F & O & _). eauto.
Qed.
Print Assumptions C51_integers.

(** Byte arrays. *)
Theorem C51_byte_arrays : forall E e s, digests_ok E -> lits_b e -> exists bs, script_ser_ops (script_from_ops (script_b e)) = Ok bs /\
  (limits (script_b e) (ba_data bs) s -> forall a, off_b E e = Ok a -> fits_b E e -> executes E (ba_data bs) s (ba_data a :: s)) /\
  (guarded_b e -> forall s', executes E (ba_data bs) s s' -> exists a, s' = ba_data a :: s /\ off_b E e = Ok a /\ fits_b E e).
Proof.
  intros E e s HD L. destruct script_lines as [_ SL]. destruct (lines_ser _ (SL e L)) as (bs & S & S'). exists bs. split; [exact S|]. split.
  - intros (A & B & C) n O F. apply (line_executes E _ _ (SL e L) S'). split; [exact A|]. split; [exact B|]. destruct (fwd E (ba_data bs) HD) as [_ FB]. exact (proj2 (FB e L n s O F) C).
  - intros G s' X. apply (line_executes E _ _ (SL e L) S') in X. destruct X as (_ & _ & R). destruct (bwd E (ba_data bs) HD) as [_ FB]. destruct (FB e L G s s' R) as (v & -> & O & F & _). eauto.
Qed.
Print Assumptions C51_byte_arrays.

(** Comparisons: a script that checks a condition is satisfied exactly when the Rust comparison is true. *)
Theorem C51_comparisons : forall E co, digests_ok E -> lits_c co -> exists bs, script_ser_ops (script_from_ops (script_c co)) = Ok bs /\
  (limits (script_c co) (ba_data bs) [] -> forall v, off_c E co = Ok v -> fits_c E co -> executes E (ba_data bs) [] [bool_item v]) /\
  (limits (script_c co) (ba_data bs) [] -> guarded_c co -> ((exists s', executes E (ba_data bs) [] s' /\ success s') <-> off_c E co = Ok true /\ fits_c E co)).
Proof.
  intros E co HD L. destruct (lines_ser _ (script_c_lines co L)) as (bs & S & S'). exists bs. split; [exact S|].
  assert (limits (script_c co) (ba_data bs) [] -> forall v, off_c E co = Ok v -> fits_c E co -> executes E (ba_data bs) [] [bool_item v]) as P.
  { intros (A & B & C) v O F. apply (line_executes E _ _ (script_c_lines co L) S'). split; [exact A|]. split; [exact B|]. exact (fwd_c E (ba_data bs) HD co v [] L O F C). }
  split; [exact P|]. intros LM G. split.
  - intros (s' & X & v & -> & T). apply (line_executes E _ _ (script_c_lines co L) S') in X. destruct X as (_ & _ & R). destruct (bwd_c E (ba_data bs) HD co [] _ L G R) as (w & W & O & F). injection W as ->. split; [|exact F]. destruct w; [exact O|discriminate T].
  - intros [O F]. exists [bool_item true]. split; [exact (P LM true O F)|]. exists [1]. split; reflexivity.
Qed.
Print Assumptions C51_comparisons.

(** Multiplication and shifts have no on-chain counterpart: a script that contains such an opcode anywhere never succeeds. *)
Theorem C51_multiplication_disabled : forall E ops o bs s s', Forall op_ok ops -> In (OCode o) ops ->
  In o [OP_MUL; OP_LSHIFT; OP_RSHIFT; OP_INVERT; OP_2MUL; OP_2DIV; OP_VERIF; OP_VERNOTIF] ->
  script_ser_ops (script_from_ops ops) = Ok bs -> ~ executes E (ba_data bs) s s'.
Proof.
  intros E ops o bs s s' F IN D S (l & m & DC & _ & _ & R & _).
  unfold script_ser_ops in S. rewrite ops_of_from in S. destruct (ser_ops_ok ops F) as (a & ch & is & S1 & EB & FC & FM & _ & OB). rewrite S1 in S. apply Ok_inj in S. subst a.
  assert (In (Exec (opcode_u8 o)) is) as II.
  { assert (0x61 <= opcode_u8 o) as G by (clear -D; cbn [In] in D; repeat (destruct D as [<-|D]; [vm_compute; discriminate|]); contradiction).
    clear -FM IN G. induction FM as [|x y ops is M _ IH]; [contradiction|]. destruct IN as [->|IN]; [|right; auto]. left. inversion M; subst; try reflexivity; exfalso; try (vm_compute in G; apply G; reflexivity); lia. }
  assert (map snd l = is) as ML. { eapply (reads_as_fun (ba_data bs)); [exact OB| |exists ch; auto]. destruct DC as [E1 F1]. exists (map fst l). split; [exact E1|]. clear -F1. induction F1; cbn; constructor; auto. }
  assert (forall l m m', steps E l m = Some m' -> Forall (fun c => match snd c with Exec b => never b = false | Push _ => True end) l) as ST.
  { clear. induction l as [|[b i] l IH]; intros m m' H; [constructor|]. cbn [steps] in H. destruct (step E b i _ m) as [m1|] eqn:X; [|discriminate]. destruct (stack_fits m1); [|discriminate]. constructor; [|eapply IH; exact H]. cbn [snd]. destruct i as [d|o]; [exact I|]. destruct m as [s a x c]. cbn [step] in X. destruct (never o); [discriminate|reflexivity]. }
  apply ST in R. rewrite <- ML in II. apply in_map_iff in II. destruct II as (ck & CK & IL). rewrite Forall_forall in R. specialize (R ck IL). rewrite CK in R.
  cbn [In] in D. repeat (destruct D as [<-|D]; [vm_compute in R; discriminate R|]). contradiction.
Qed.
Print Assumptions C51_multiplication_disabled.

(** The two places where off-chain and on-chain differ, both at OP_NUM2BIN: it accepts an overflowed (5-byte) sum, which the library
    rejects, and length 0 for the number 0, which the library rejects. *)
Definition ex_env : env := Env (fun _ => repeat 3 20) (fun _ => repeat 4 20) (fun _ => repeat 5 32) (fun _ _ _ => true) (fun _ _ _ => true) (fun _ => true) (fun _ => true) (fun _ _ => None).
Theorem C51_num2bin_refuted :
  (exists e bs, lits_b e /\ off_b ex_env e = Err (EAddOverflow 2147483647 1) /\ script_ser_ops (script_from_ops (script_b e)) = Ok bs /\ executes ex_env (ba_data bs) [] [[0; 0; 0; 128; 0; 0; 0; 0]]) /\
  from_int 0 0 = Err (EFromInteger 0 0) /\ main_op ex_env [] (opcode_u8 OP_NUM2BIN) [enc 0; enc 0] = Some [[]].
Proof.
  split; [|split; vm_compute; reflexivity].
  set (e := BNum2Bin (IAdd (ILit 2147483647) (ILit 1)) 8). assert (lits_b e) as L by (cbn; unfold script_int; change (2 ^ 31) with 2147483648; lia). destruct script_lines as [_ SL]. destruct (lines_ser _ (SL e L)) as (bs & S & S'). exists e, bs. split; [exact L|]. split; [reflexivity|]. split; [exact S|].
  apply (line_executes ex_env _ _ (SL e L) S').
  assert (serialize_ops (script_b e) = Ok bs -> ba_data bs = [4; 255; 255; 255; 127; 81; 147; 88; 128]) as D by (intros H; assert (exists x, serialize_ops (script_b e) = Ok x /\ ba_data x = [4; 255; 255; 255; 127; 81; 147; 88; 128]) as (x & X & Y) by (eexists; split; vm_compute; reflexivity); rewrite X in H; apply Ok_inj in H; subst x; exact Y).
  rewrite (D S'). split; [vm_compute; discriminate|]. split; [vm_compute; discriminate|]. vm_compute. reflexivity.
Qed.
Print Assumptions C51_num2bin_refuted.

(** Non-trivial instances: len([3,0,0] ++ [9,9]) - (-7 / 3) + (-7 % -4), and sha256([3,0,0] ++ [9,9][1..])[..3] == num2bin(328965, 3). *)
Definition ex_len : iexp := IAdd (ISub (ILen (BCat (BLit (ba_unnamed [3; 0; 0])) (BLit (ba_unnamed [9; 9])))) (IDiv (ILit (-7)) (ILit 3))) (IMod (ILit (-7)) (INeg (ILit 4))).
Definition ex_cond : cond := CEqual (BLeft (BHash HSha256 (BCat (BLit (ba_unnamed [3; 0; 0])) (BRight (BLit (ba_unnamed [9; 9])) 1))) 3) (BNum2Bin (ILit 328965) 3).
Example C51_nonvacuous : digests_ok ex_env /\ lits_i ex_len /\ guarded_i ex_len /\ fits_i ex_env ex_len /\ off_i ex_env ex_len = Ok 4 /\
  (exists bs, script_ser_ops (script_from_ops (script_i ex_len)) = Ok bs /\ limits (script_i ex_len) (ba_data bs) [[7]]) /\
  lits_c ex_cond /\ guarded_c ex_cond /\ fits_c ex_env ex_cond /\ off_c ex_env ex_cond = Ok true /\
  (exists bs, script_ser_ops (script_from_ops (script_c ex_cond)) = Ok bs /\ limits (script_c ex_cond) (ba_data bs) []) /\
  off_c ex_env (CRel RLt (ILit (-5)) (ILit (-5))) = Ok false /\ off_i ex_env (IDiv (ILit 1) (ILit 0)) = Err (EDivision 1 0).
Proof.
  assert (forall l, bytes_ok (map Z.of_nat l) <-> Forall (fun n => byte_ok (Z.of_nat n)) l) as _ by (intros l; unfold bytes_ok; apply Forall_map).
  assert (bytes_ok [3; 0; 0] /\ bytes_ok [9; 9]) as [B1 B2] by (split; repeat (apply bytes_ok_cons; split; [unfold byte_ok; lia|]); apply bytes_ok_nil).
  split; [intros [] d; reflexivity|].
  split; [cbn; unfold script_int; change (2 ^ 31) with 2147483648; change (2 ^ 32) with 4294967296; repeat (split; try lia; auto)|].
  split; [cbn; auto 10|].
  split; [cbn; repeat (split; auto; try lia); intros x H; vm_compute in H; apply Ok_inj in H; subst x; vm_compute; discriminate|].
  split; [vm_compute; reflexivity|].
  split; [eexists; split; [vm_compute; reflexivity|]; split; [vm_compute; discriminate|]; split; vm_compute; discriminate|].
  split; [cbn; unfold script_int; change (2 ^ 31) with 2147483648; change (2 ^ 32) with 4294967296; repeat (split; try lia; auto)|].
  split; [cbn; auto 10|].
  split; [cbn; repeat (split; auto; try lia); intros x H; vm_compute in H; apply Ok_inj in H; subst x; vm_compute; discriminate|].
  split; [vm_compute; reflexivity|].
  split; [eexists; split; [vm_compute; reflexivity|]; split; [vm_compute; discriminate|]; split; vm_compute; discriminate|].
  split; vm_compute; reflexivity.
Qed.
