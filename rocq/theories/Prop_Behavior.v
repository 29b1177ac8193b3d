(** C52: the opcode table ([Opcode::behavior], [is_disabled], [retains_input]) describes what the opcodes do when the network executes them. *)
From Verif Require Import Base BaseLemmas Model_Encoding Spec_Encoding Model_Opcode Model_Behavior Spec_Script Proofs_Script Spec_Network Proofs_Network Proofs_Network2 Spec_OffChain Spec_Behavior Proofs_Behavior Prop_OffChain.
Local Open Scope list_scope.
Local Open Scope Z_scope.

Lemma running_active x : running x -> forallb (fun b => b) x = true.
Proof. intros H. apply forallb_forall. intros b I. unfold running in H. rewrite Forall_forall in H. now apply H. Qed.

(** An opcode given inputs of the declared types consumes exactly these, leaves everything below, the alt stack and the open conditionals alone,
    and puts items of the declared types in their place, in the declared order and with the declared deltas. *)
Theorem C52_effect : forall E c b bs after ins rest a x co m', digests_ok E ->
  opcode_behavior c = Ok b -> on_top c = true -> Forall2 typed (b_input_types b) ins -> Forall bytes_ok ins -> Forall item_ok rest -> zlen (rev ins ++ rest) <= MAX_STACK -> running x ->
  step E bs (Exec (opcode_u8 c)) after (Machine (rev ins ++ rest) a x co) = Some m' ->
  exists outs, m_main m' = rev outs ++ rest /\ m_alt m' = a /\ m_exec m' = x /\ Forall2 (produces c) (b_output_types b) outs /\
    (c <> OP_DEPTH -> declared_order b ins outs) /\ (c <> OP_CHECKSIGVERIFY -> declared_delta b ins outs).
Proof.
  intros E c b bs after ins rest a x co m' DG HB OT TI BO IR SZ X H. rewrite (step_on_top _ _ _ _ _ _ _ _ OT (running_active _ X)) in H.
  destruct (main_op E co (opcode_u8 c) (rev ins ++ rest)) as [s'|] eqn:M; [|discriminate H]. cbn [option_map] in H. apply Some_inj in H. subst m'.
  destruct (effect E c b co ins rest s' DG HB OT TI BO IR SZ M) as (outs & -> & A). exists outs. cbn [m_main m_alt m_exec]. do 3 (split; [reflexivity|]). exact A.
Qed.
Print Assumptions C52_effect.

(** With fewer items than declared, or with an item that is not a number where a number or Boolean is declared, the script fails. *)
Theorem C52_needs_inputs : forall E c b bs after s a x co, opcode_behavior c = Ok b -> on_top c = true -> running x -> (length s < length (b_input_types b))%nat ->
  step E bs (Exec (opcode_u8 c)) after (Machine s a x co) = None.
Proof.
  intros E c b bs after s a x co HB OT X L. rewrite (step_on_top _ _ _ _ _ _ _ _ OT (running_active _ X)), (too_few _ _ _ _ _ HB OT L). reflexivity.
Qed.
Theorem C52_needs_numbers : forall E c b bs after ins rest a x co j t v, opcode_behavior c = Ok b -> on_top c = true -> running x -> length ins = length (b_input_types b) ->
  nth_error (b_input_types b) j = Some t -> t = TInteger \/ t = TBoolean -> nth_error ins j = Some v -> num v = None ->
  c <> OP_VERIFY -> c <> OP_CHECKLOCKTIMEVERIFY -> c <> OP_CHECKSEQUENCEVERIFY -> ~ (c = OP_NUM2BIN /\ j = 0%nat) ->
  step E bs (Exec (opcode_u8 c)) after (Machine (rev ins ++ rest) a x co) = None.
Proof.
  intros E c b bs after ins rest a x co j t v HB OT X L T TT V N C1 C2 C3 C4. rewrite (step_on_top _ _ _ _ _ _ _ _ OT (running_active _ X)).
  rewrite (wrong_type E c b co ins rest j t v HB OT L T TT V N C1 C2 C3 C4). reflexivity.
Qed.
(** Opcodes outside the list [partial_op] never fail on inputs of the declared types. *)
Theorem C52_total : forall E c b bs after ins rest a x co, opcode_behavior c = Ok b -> on_top c = true -> partial_op c = false -> running x ->
  Forall2 typed (b_input_types b) ins -> exists m', step E bs (Exec (opcode_u8 c)) after (Machine (rev ins ++ rest) a x co) = Some m'.
Proof.
  intros E c b bs after ins rest a x co HB OT P X TI. rewrite (step_on_top _ _ _ _ _ _ _ _ OT (running_active _ X)).
  destruct (total E c b co ins rest HB OT P TI) as (s' & ->). eexists. reflexivity.
Qed.
Print Assumptions C52_total.

(** [is_disabled] and [behavior] agree with the network about which opcodes cannot be used. *)
Theorem C52_disabled : forall c, opcode_is_disabled c = true ->
  opcode_behavior c = Panic /\ (forall E bs after m, running (m_exec m) -> step E bs (Exec (opcode_u8 c)) after m = None).
Proof.
  intros c H. split; [destruct c; try discriminate H; reflexivity|]. intros E bs after [s a x co] X. cbn [m_exec] in X.
  assert (OT : on_top c = true) by (destruct c; try discriminate H; reflexivity). rewrite (step_on_top _ _ _ _ _ _ _ _ OT (running_active _ X)). destruct c; try discriminate H; reflexivity.
Qed.
Theorem C52_enabled : exists E m, forall c, opcode_is_disabled c = false -> constant c = None ->
  ~ In c [OP_RETURN; OP_PUSHDATA1; OP_PUSHDATA2; OP_PUSHDATA4; FIRST_UNDEFINED_OP_VALUE] ->
  chunk [opcode_u8 c] (Exec (opcode_u8 c)) /\ exists m', step E [opcode_u8 c] (Exec (opcode_u8 c)) [] m = Some m'.
Proof.
  exists (Env (fun _ => repeat 3 20) (fun _ => repeat 4 20) (fun _ => repeat 5 32) (fun _ _ _ => true) (fun _ _ _ => true) (fun _ => true) (fun _ => true) (fun _ s => Some (s, true))),
    (Machine [[1]; [1]; [1]; [1]; [1]; [1]] [[1]] [true] []).
  intros c D K N. destruct c; try discriminate D; try discriminate K; try (exfalso; apply N; cbn; tauto); (split; [apply CkExec; cbn; lia|]); eexists; reflexivity.
Qed.
Theorem C52_behavior_panics : forall c, opcode_behavior c = Panic <-> opcode_is_disabled c = true \/ In c [OP_IFDUP; OP_CHECKMULTISIG; OP_CHECKMULTISIGVERIFY].
Proof.
  intros c. split; [destruct c; intros H; try discriminate H; cbn; auto 10|]. intros [H|H]; [destruct c; try discriminate H; reflexivity|].
  cbn in H. destruct H as [<-|[<-|[<-|[]]]]; reflexivity.
Qed.
(** [behavior] never returns an error. *)
Theorem C52_behavior_no_error : forall c e, opcode_behavior c <> Err e.
Proof. intros c e. destruct c; discriminate. Qed.

(** [retains_input]: the operand stays on the stack; and of the opcodes that compute something from their operands no other leaves them. *)
Theorem C52_retains_input : forall E c bs after s a x co m', opcode_retains_input c = true -> running x -> step E bs (Exec (opcode_u8 c)) after (Machine s a x co) = Some m' ->
  exists new, m_main m' = new ++ s /\ (length new <= 1)%nat /\ s <> [].
Proof.
  intros E c bs after s a x co m' R X H. assert (OT : on_top c = true) by (destruct c; try discriminate R; reflexivity). rewrite (step_on_top _ _ _ _ _ _ _ _ OT (running_active _ X)) in H.
  destruct c; try discriminate R; cbn [main_op opcode_u8] in H; (destruct s as [|v r]; [discriminate H|]).
  - cbn [option_map] in H. apply Some_inj in H. subst m'. exists [enc (zlen v)]. cbn. repeat split; [lia|discriminate].
  - destruct (e_locktime E v); [|discriminate H]. apply Some_inj in H. subst m'. exists []. cbn. repeat split; [lia|discriminate].
  - destruct (e_sequence E v); [|discriminate H]. apply Some_inj in H. subst m'. exists []. cbn. repeat split; [lia|discriminate].
Qed.
Definition consumed (c : opcode) : list (list Z) :=
  match c with OP_BIN2NUM => [[0]] | OP_REVERSEBYTES => [[1; 2]] | OP_PICK => [[]; [7]] | OP_NUM2BIN | OP_SPLIT => [[1]; [7]] | _ => [[130]; [130]; [130]] end.
Theorem C52_consumes_input : forall c b, opcode_retains_input c = false -> on_top c = true -> opcode_behavior c = Ok b -> b_output_order b = None -> b_input_types b <> [] ->
  exists E s m', step E [opcode_u8 c] (Exec (opcode_u8 c)) [] (Machine s [] [] []) = Some m' /\ forall new, m_main m' <> new ++ s.
Proof.
  intros c b R OT HB O I. exists (Env (fun _ => repeat 3 20) (fun _ => repeat 4 20) (fun _ => repeat 5 32) (fun _ _ _ => true) (fun _ _ _ => true) (fun _ => true) (fun _ => true) (fun _ s => Some (s, true))), (consumed c).
  destruct c; try discriminate R; try discriminate OT; try discriminate HB; cbn [opcode_behavior opcode_is_disabled] in HB; apply Ok_inj in HB; subst b; try discriminate O; try (exfalso; apply I; reflexivity);
  (eexists; split; [reflexivity|]; intros new Q; apply (f_equal (fun l => rev l)) in Q; rewrite rev_app_distr in Q; vm_compute in Q; try discriminate Q; apply (f_equal (@length _)) in Q; vm_compute in Q; discriminate Q).
Qed.
Print Assumptions C52_consumes_input.

Lemma CkSmall_at b : 0x51 <= b <= 0x60 -> chunk [b] (Push [b - 0x50]).
Proof. intros H. replace b with (0x50 + (b - 0x50)) at 1 by lia. apply CkSmall. lia. Qed.
(** Opcodes that are themselves pushes: one integer is added. *)
Theorem C52_constants : forall E c n after s a x co, constant c = Some n -> running x ->
  opcode_behavior c = Ok (Behavior [] [TInteger] None [Added]) /\
  exists d, chunk [opcode_u8 c] (Push d) /\ num d = Some n /\ typed TInteger d /\ step E [opcode_u8 c] (Push d) after (Machine s a x co) = Some (Machine (d :: s) a x co).
Proof.
  intros E c n after s a x co K X. assert (A : active (Machine s a x co) = true) by exact (running_active _ X).
  assert (exists d, chunk [opcode_u8 c] (Push d) /\ num d = Some n /\ zlen d <= 1 /\ opcode_u8 c = push_head d) as (d & Ck & N & L & Hd).
  { destruct c; try discriminate K; injection K as <-;
      first [exists []; split; [constructor|split; [reflexivity|split; [cbn; lia|reflexivity]]]
            |exists [129]; split; [constructor|split; [reflexivity|split; [cbn; lia|reflexivity]]]
            |eexists [_]; split; [apply CkSmall_at; cbn; lia|split; [reflexivity|split; [cbn; lia|reflexivity]]]]. }
  split; [destruct c; try discriminate K; reflexivity|]. exists d. split; [exact Ck|]. split; [exact N|]. split; [split; [unfold item_ok; lia|exists n; exact N]|].
  cbn [step]. unfold MAX_ELEMENT. destruct (520 <? zlen d) eqn:Q; [lia|]. rewrite A. cbn [negb hd]. rewrite Hd, Z.eqb_refl. reflexivity.
Qed.

Lemma roll_ok E code n above v below : num n = Some (zlen above) -> main_op E code 0x7a (n :: above ++ v :: below) = Some (v :: above ++ below).
Proof.
  intros N. cbn [main_op]. rewrite N. destruct (0 <=? zlen above) eqn:Q; [|pose proof (zlen_nonneg above); lia]. unfold zlen. rewrite Nat2Z.id, nth_error_app2, Nat.sub_diag by lia. cbn [nth_error option_map].
  rewrite firstn_app, Nat.sub_diag, firstn_all, skipn_app. replace (S (length above) - length above)%nat with 1%nat by lia. rewrite (skipn_all2 above) by lia. cbn [firstn skipn]. rewrite app_nil_r. reflexivity.
Qed.
(** Conditionals and the alt stack: one item is consumed by OP_IF (which remembers its truth) and by OP_TOALTSTACK, one is added by OP_FROMALTSTACK; OP_ELSE and OP_ENDIF
    leave the stack alone.  OP_ROLL moves an item up from below its operand. *)
Theorem C52_control : forall E bs after s a x co v, running x ->
  let run c s a x := step E bs (Exec (opcode_u8 c)) after (Machine s a x co) in
  let shape c := match opcode_behavior c with Ok b => Some (length (b_input_types b), length (b_output_types b)) | _ => None end in
  run OP_IF (v :: s) a x = Some (Machine s a (truth v :: x) co) /\ shape OP_IF = Some (1, 0)%nat /\
  run OP_TOALTSTACK (v :: s) a x = Some (Machine s (v :: a) x co) /\ shape OP_TOALTSTACK = Some (1, 0)%nat /\
  run OP_FROMALTSTACK s (v :: a) x = Some (Machine (v :: s) a x co) /\ shape OP_FROMALTSTACK = Some (0, 1)%nat /\
  (forall b, run OP_ELSE s a (b :: x) = Some (Machine s a (negb b :: x) co)) /\ shape OP_ELSE = Some (0, 0)%nat /\
  (forall b, run OP_ENDIF s a (b :: x) = Some (Machine s a x co)) /\ shape OP_ENDIF = Some (0, 0)%nat /\
  (run OP_IF [] a x = None /\ run OP_TOALTSTACK [] a x = None /\ run OP_FROMALTSTACK s [] x = None /\ run OP_ELSE s a [] = None /\ run OP_ENDIF s a [] = None) /\
  (forall above below n, num n = Some (zlen above) -> run OP_ROLL (n :: above ++ v :: below) a x = Some (Machine (v :: above ++ below) a x co)).
Proof.
  intros E bs after s a x co v X. apply running_active in X. intros run shape. unfold run, shape. cbv beta iota delta [step opcode_u8 active m_exec]. rewrite X.
  repeat split. intros above below n N. rewrite (roll_ok _ _ _ _ _ _ N). reflexivity.
Qed.
Print Assumptions C52_control.

(** Where the table is wrong: the declared delta of OP_CHECKSIGVERIFY has an entry although nothing is left, the declared order of OP_DEPTH names an input although there
    is none, OP_NOTIF is declared to leave the stack alone although it consumes an item, and OP_ROLL, declared to replace one item by one, removes one. *)
Theorem C52_table_refuted :
  (exists b, opcode_behavior OP_CHECKSIGVERIFY = Ok b /\ b_output_types b = [] /\ length (b_delta b) = 1%nat) /\
  (exists b, opcode_behavior OP_DEPTH = Ok b /\ b_input_types b = [] /\ b_output_order b = Some [0%nat]) /\
  (exists b, opcode_behavior OP_NOTIF = Ok b /\ b_input_types b = [] /\ forall E m m', running (m_exec m) -> step E [opcode_u8 OP_NOTIF] (Exec (opcode_u8 OP_NOTIF)) [] m = Some m' -> zlen (m_main m') = zlen (m_main m) - 1) /\
  (exists b, opcode_behavior OP_ROLL = Ok b /\ length (b_input_types b) = length (b_output_types b) /\
     forall E m m', running (m_exec m) -> step E [opcode_u8 OP_ROLL] (Exec (opcode_u8 OP_ROLL)) [] m = Some m' -> zlen (m_main m') = zlen (m_main m) - 1).
Proof.
  split; [eexists; repeat split|]. split; [eexists; repeat split|]. split; eexists; (split; [reflexivity|]); (split; [reflexivity|]); intros E [s a x co] m' X H; cbn [m_exec] in X; apply running_active in X.
  - cbv beta iota delta [step opcode_u8 active m_exec] in H. rewrite X in H. cbn in H. destruct s as [|v r]; [discriminate H|]. apply Some_inj in H. subst m'. cbn [m_main]. rewrite zlen_cons. lia.
  - cbv beta iota delta [step opcode_u8 active m_exec] in H. rewrite X in H. cbn [negb] in H. cbv beta iota delta [main_op] in H. destruct s as [|v r]; [discriminate H|]. destruct (num v) as [k|]; [|discriminate H]. destruct (0 <=? k) eqn:K; [|discriminate H].
    destruct (nth_error r (Z.to_nat k)) as [y|] eqn:Y; [|discriminate H]. apply Some_inj in H. subst m'. cbn [m_main]. rewrite !zlen_cons, zlen_app. assert (Z.to_nat k < length r)%nat by (apply nth_error_Some; congruence).
    unfold zlen. rewrite firstn_length, skipn_length. lia.
Qed.
Print Assumptions C52_table_refuted.

(** Non-trivial instances: a swap of two pairs inside a taken branch, an addition that overflows, a comparison. *)
Example C52_nonvacuous :
  (exists b m', digests_ok ex_env /\ opcode_behavior OP_2SWAP = Ok b /\ on_top OP_2SWAP = true /\ Forall2 typed (b_input_types b) [[1]; [2; 3]; []; [4]] /\ Forall bytes_ok [[1]; [2; 3]; []; [4]] /\ Forall item_ok [[9]] /\ running [true; true] /\
     step ex_env [0x72] (Exec (opcode_u8 OP_2SWAP)) [] (Machine (rev [[1]; [2; 3]; []; [4]] ++ [[9]]) [] [true; true] []) = Some m' /\ m_main m' = rev [[]; [4]; [1]; [2; 3]] ++ [[9]]) /\
  (exists b, opcode_behavior OP_ADD = Ok b /\ Forall2 typed (b_input_types b) [[255; 255; 255; 127]; [1]] /\ main_op ex_env [] (opcode_u8 OP_ADD) (rev [[255; 255; 255; 127]; [1]]) = Some [[0; 0; 0; 128; 0]] /\
     produces OP_ADD TInteger [0; 0; 0; 128; 0] /\ ~ typed TInteger [0; 0; 0; 128; 0]) /\
  (exists b, opcode_behavior OP_WITHIN = Ok b /\ main_op ex_env [] (opcode_u8 OP_WITHIN) (rev [[130]; [133]; []]) = Some [[1]] /\ main_op ex_env [] (opcode_u8 OP_WITHIN) (rev [[130]; [133; 0]; []]) = Some [[]] /\ num [133; 0; 0] = None).
Proof.
  split; [|split].
  - do 2 eexists. split; [apply C51_nonvacuous|]. split; [reflexivity|]. split; [reflexivity|]. split; [repeat constructor; unfold item_ok; cbn; lia|]. split; [repeat constructor; lia|].
    split; [repeat constructor; unfold item_ok; cbn; lia|]. split; [repeat constructor|]. split; vm_compute; reflexivity.
  - eexists. split; [reflexivity|]. split; [repeat constructor; try (unfold item_ok; cbn; lia); [exists 2147483647|exists 1]; vm_compute; reflexivity|]. split; [vm_compute; reflexivity|]. split.
    + right. split; [reflexivity|]. split; [reflexivity|]. exists 2147483648. split; [vm_compute; reflexivity|]. change (2 ^ 31) with 2147483648. change (2 ^ 32) with 4294967296. lia.
    + intros [_ [n N]]. vm_compute in N. discriminate N.
  - eexists. split; [reflexivity|]. repeat split; vm_compute; reflexivity.
Qed.
Print Assumptions C52_nonvacuous.
