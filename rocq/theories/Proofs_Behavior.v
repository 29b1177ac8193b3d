From Verif Require Import Base BaseLemmas Model_Encoding Spec_Encoding Proofs_Encoding Spec_Integer Proofs_Integer Model_ByteArray Model_Opcode Model_Behavior Spec_Script Spec_Network Proofs_Network Proofs_Network2
  Spec_OffChain Proofs_OffChain Proofs_OffChain2 Spec_Behavior.
Local Open Scope list_scope.
Local Open Scope Z_scope.

Lemma too_few E c b code s : opcode_behavior c = Ok b -> on_top c = true -> (length s < length (b_input_types b))%nat -> main_op E code (opcode_u8 c) s = None.
Proof.
  intros HB OT L. destruct c; try discriminate OT; try discriminate HB; cbn [opcode_behavior opcode_is_disabled] in HB; apply Ok_inj in HB; subst b; cbn [b_input_types length] in L; try lia;
  repeat (destruct s as [|?x s]; cbn [length] in L; [reflexivity|]; try lia).
Qed.

Lemma num_range v n : num v = Some n -> bytes_ok v -> script_int n.
Proof.
  intros H O. apply num_some in H. destruct H as (L & M & N). destruct v as [|x r] eqn:E; [cbn in N; subst n; unfold script_int; lia|]. rewrite <- E in *.
  destruct (num_mag v n O N ltac:(rewrite E; discriminate) M) as (_ & _ & A & _). assert (2 ^ (8 * zlen v - 1) <= 2 ^ 31) by (apply Z.pow_le_mono_r; lia). unfold script_int. lia.
Qed.

Lemma typed_enc z : script_int z -> typed TInteger (enc z).
Proof.
  intros H. assert (N : num (enc z) = Some z) by (apply num_enc; auto). split; [|exists z; exact N]. apply num_some in N. unfold item_ok. lia.
Qed.
Lemma typed_enc_short z : zlen (enc z) <= 4 -> typed TInteger (enc z).
Proof.
  intros H. split; [unfold item_ok; lia|]. exists z. apply num_some. destruct (enc_correct z) as (A & B & _). auto.
Qed.
Lemma typed_bool b : typed TBoolean (bool_item b).
Proof. split; [destruct b; unfold item_ok; cbn; lia|]. destruct b; cbn; auto. Qed.
Lemma typed_check b g v : check b g = Some v -> typed TBoolean v.
Proof. unfold check. destruct b; [|destruct g]; intros H; inversion H; subst; [apply (typed_bool true)|apply (typed_bool false)]. Qed.
Lemma produces_enc c z : Z.abs z < 2 ^ 32 -> (script_int z \/ may_overflow c = true) -> produces c TInteger (enc z).
Proof.
  intros H [K|K]; [left; now apply typed_enc|]. destruct (script_int_dec z) as [D|D]; [left; now apply typed_enc|]. right. split; [exact K|]. split; [reflexivity|]. exists z. split; [reflexivity|].
  unfold script_int in D. change (2 ^ 31) with 2147483648 in *. change (2 ^ 32) with 4294967296 in *. lia.
Qed.
Lemma zip_len f a : forall b, zlen a = zlen b -> zlen (zip_with f a b) = zlen a.
Proof.
  intros b H. unfold zlen in *. assert (L : length a = length b) by lia. clear H. f_equal. revert b L.
  induction a as [|x a IH]; intros [|y b] L; cbn [zip_with length] in *; try discriminate; auto.
Qed.
Lemma delta_nil ins b : b_delta b = [] -> declared_delta b ins [].
Proof. intros H. split; [now rewrite H|]. intros j d K. rewrite H in K. destruct j; discriminate. Qed.

Lemma order_none b ins outs : b_output_order b = None -> declared_order b ins outs.
Proof. intros H o K. congruence. Qed.
Lemma delta_changed b ins outs : b_delta b = map (fun _ => Changed) outs -> declared_delta b ins outs.
Proof.
  intros H. split; [rewrite H; apply map_length|]. intros j d K. rewrite H in K. assert (d = Changed) by (revert j K; clear; induction outs; intros [|j] K; cbn in K; try discriminate; [congruence|eauto]).
  subst d. repeat split; try discriminate; intros [?|?]; discriminate.
Qed.
Ltac fwd_inv := repeat match goal with H : Forall2 _ (_ :: _) _ |- _ => inversion H; clear H; subst | H : Forall2 _ [] _ |- _ => inversion H; clear H; subst end.
Ltac delta_tac := split; [reflexivity|]; intros j d Hj;
  repeat (destruct j as [|j]; cbn [nth_error b_delta] in Hj; [injection Hj; clear Hj; intros Hj; subst d; split; [intros [?|?]; try discriminate; reflexivity|split; [intros [?|?]; try discriminate;
     first [exists 0%nat; split; [discriminate|split; [cbn; lia|reflexivity]] | exists 1%nat; split; [discriminate|split; [cbn; lia|reflexivity]] | exists 2%nat; split; [discriminate|split; [cbn; lia|reflexivity]]
      | exists 3%nat; split; [discriminate|split; [cbn; lia|reflexivity]] | exists 4%nat; split; [discriminate|split; [cbn; lia|reflexivity]] | exists 5%nat; split; [discriminate|split; [cbn; lia|reflexivity]]]|discriminate]]|]);
  destruct j; discriminate.

Definition agrees (c : opcode) (b : behavior) (ins outs : list (list Z)) : Prop :=
  Forall2 (produces c) (b_output_types b) outs /\ (c <> OP_DEPTH -> declared_order b ins outs) /\ (c <> OP_CHECKSIGVERIFY -> declared_delta b ins outs).


Lemma one_ok c ti t v r ins : produces c t v -> exists outs, v :: r = rev outs ++ r /\ agrees c (Behavior ti [t] None [Changed]) ins outs.
Proof. intros H. exists [v]. split; [reflexivity|]. split; [constructor; [exact H|constructor]|]. split; intros _; [apply order_none; reflexivity|apply delta_changed; reflexivity]. Qed.
Lemma none_ok c ti dl r ins : dl = [] \/ c = OP_CHECKSIGVERIFY -> exists outs, r = rev outs ++ r /\ agrees c (Behavior ti [] None dl) ins outs.
Proof. intros H. exists []. split; [reflexivity|]. split; [constructor|]. split; [intros _; apply order_none; reflexivity|]. intros N. destruct H as [->|H]; [apply delta_nil; reflexivity|contradiction]. Qed.
Lemma unary_inv f a r s' : unary f (a :: r) = Some s' -> exists x v, num a = Some x /\ f x = Some v /\ s' = v :: r.
Proof. cbn. destruct (num a) as [x|]; [|discriminate]. destruct (f x) as [v|] eqn:F; [|discriminate]. intros H. injection H as <-. eauto. Qed.
Lemma binary_inv f a b r s' : binary f (b :: a :: r) = Some s' -> exists x y v, num a = Some x /\ num b = Some y /\ f x y = Some v /\ s' = v :: r.
Proof. cbn. destruct (num a) as [x|]; [|discriminate]. destruct (num b) as [y|]; [|discriminate]. destruct (f x y) as [v|] eqn:F; [|discriminate]. intros H. injection H as <-. do 3 eexists; repeat split; eauto. Qed.
Lemma verify_inv v r s' : verify_top (Some (v :: r)) = Some s' -> s' = r.
Proof. cbn. destruct (truth v); [intros H; now injection H|discriminate]. Qed.
Lemma verify_omap {A} (f : A -> list Z) o (r s' : list (list Z)) : verify_top (option_map (fun v => f v :: r) o) = Some s' -> s' = r.
Proof. destruct o; [apply verify_inv|discriminate]. Qed.
Lemma Some_inj {A} (a b : A) : Some a = Some b -> a = b.
Proof. intros H. now injection H. Qed.
Lemma num2bin_len m k v : 0 <= k -> zlen m <= k ->
  v = match rev m with [] => repeat 0 (Z.to_nat k) | top :: t => if zlen m =? k then m else rev t ++ [top mod 128] ++ repeat 0 (Z.to_nat (k - zlen m - 1)) ++ [top - top mod 128] end -> zlen v = k.
Proof.
  intros K L ->. destruct (rev m) as [|top t] eqn:R.
  - unfold zlen. rewrite repeat_length. lia.
  - destruct (zlen m =? k) eqn:Q; [lia|]. assert (zlen m = zlen t + 1) by (rewrite <- (rev_involutive m), R; cbn [rev]; rewrite zlen_app; unfold zlen; rewrite rev_length; cbn; lia).
    rewrite !zlen_app. unfold zlen at 1 3. rewrite rev_length, repeat_length. change (zlen [top mod 128]) with 1. change (zlen [top - top mod 128]) with 1. unfold zlen in *. lia.
Qed.
Ltac op c := match goal with |- context[agrees c] => idtac end.
Ltac ops := match goal with |- context[agrees ?c] => idtac c end.
Ltac ranges := repeat match goal with N : num ?a = Some ?x, B : bytes_ok ?a |- _ => pose proof (num_range _ _ N B); clear N end; unfold script_int in *; change (2 ^ 31) with 2147483648 in *; change (2 ^ 32) with 4294967296 in *.

Lemma effect E c b code ins rest s' : digests_ok E -> opcode_behavior c = Ok b -> on_top c = true ->
  Forall2 typed (b_input_types b) ins -> Forall bytes_ok ins -> Forall item_ok rest -> zlen (rev ins ++ rest) <= 1000 ->
  main_op E code (opcode_u8 c) (rev ins ++ rest) = Some s' ->
  exists outs, s' = rev outs ++ rest /\ agrees c b ins outs.
Proof.
  intros DG HB OT TI BO IR SZ HM.
  assert (HD : forall h d, item_ok (digest E h d)) by (intros h d; unfold item_ok; rewrite DG; destruct h; cbn; lia).
  destruct c; try discriminate OT; try discriminate HB; cbn [opcode_behavior opcode_is_disabled] in HB; apply Ok_inj in HB; subst b; cbn [b_input_types] in TI; fwd_inv;
    cbn [rev app] in HM, SZ; try discriminate HM.
  all: repeat match goal with H : Forall bytes_ok (_ :: _) |- _ => inversion H; clear H; subst end.
  (* moves only *)
  all: lazymatch goal with |- context[agrees _ (Behavior _ _ (Some []) _)] => injection HM; clear HM; intros HM; subst s'; exists []; split; [reflexivity|]; split; [constructor|]; split; intros _; [intros o' Ho; injection Ho as <-; reflexivity|apply delta_nil; reflexivity]
   | |- context[agrees OP_DEPTH] => idtac
   | |- context[agrees _ (Behavior _ _ (Some ?o) _) ?l _] => injection HM; clear HM; intros HM; subst s'; exists (map (fun k => nth k l []) o); split; [reflexivity|]; split;
       [cbn [map nth]; repeat (constructor; [left; split; [unfold typed in *; tauto|exact I]|]); constructor|]; split; intros _; [intros o' Ho; injection Ho as <-; reflexivity|delta_tac]
   | _ => idtac end.
  (* no effect *)
  all: try (injection HM; clear HM; intros HM; subst s'; apply none_ok; auto; fail).
  all: try (apply verify_inv in HM || apply verify_omap in HM; subst s'; apply none_ok; auto; fail).
  (* arithmetic and comparisons *)
  all: try (apply unary_inv in HM; destruct HM as (nx & nv & N & F & ->); injection F as <-; apply one_ok; first [left; apply typed_bool | ranges; apply produces_enc; [change (2 ^ 32) with 4294967296; lia|first [right; reflexivity|left; unfold script_int; lia]]]; fail).
  all: try (apply binary_inv in HM; destruct HM as (nx & ny & nv & N & N' & F & ->); try (injection F as <-); apply one_ok;
       first [left; apply typed_bool | ranges; apply produces_enc; [change (2 ^ 32) with 4294967296; lia|first [right; reflexivity|left; unfold script_int; lia]]]; fail).
  all: try (first [op OP_DIV | op OP_MOD]; apply binary_inv in HM; destruct HM as (nx & ny & nv & N & N' & F & ->); destruct (ny =? 0) eqn:Z0; [discriminate F|]; injection F as <-; apply Z.eqb_neq in Z0; apply one_ok;
       left; apply typed_enc; first [apply quot_range | apply rem_range]; try exact Z0; eapply num_range; eassumption).
  all: try (first [op OP_CHECKSIG | op OP_CHECKDATASIG]; cbn [main_op opcode_u8] in HM; destruct (check _ _) eqn:K in HM; [|discriminate HM]; injection HM as <-; apply one_ok; left; eapply typed_check; exact K).
  all: try (first [op OP_CHECKLOCKTIMEVERIFY | op OP_CHECKSEQUENCEVERIFY]; cbn [main_op opcode_u8] in HM; match type of HM with (if ?q then _ else _) = _ => destruct q; [|discriminate HM] end; injection HM as <-;
     match goal with |- context[agrees _ _ [?a] _] => exists [a] end; split; [reflexivity|]; split; [constructor; [left; assumption|constructor]|]; split; intros _; [apply order_none; reflexivity|delta_tac]).
  all: try (op OP_RIPEMD160; injection HM as <-; apply one_ok; left; split; [exact (HD HRipemd160 _)|exact (DG HRipemd160 _)]).
  all: try (op OP_SHA1; injection HM as <-; apply one_ok; left; split; [exact (HD HSha1 _)|exact (DG HSha1 _)]).
  all: try (op OP_SHA256; injection HM as <-; apply one_ok; left; split; [exact (HD HSha256 _)|exact (DG HSha256 _)]).
  all: try (op OP_HASH160; injection HM as <-; apply one_ok; left; split; [exact (HD HHash160 _)|exact (DG HHash160 _)]).
  all: try (op OP_HASH256; injection HM as <-; apply one_ok; left; split; [exact (HD HHash256 _)|exact (DG HHash256 _)]).
  all: try (op OP_EQUAL; injection HM as <-; apply one_ok; left; apply typed_bool).
  all: try (op OP_REVERSEBYTES; injection HM as <-; apply one_ok; left; split; [unfold typed, item_ok, zlen in *; rewrite rev_length; tauto|exact I]).
  all: try (first [op OP_AND | op OP_OR | op OP_XOR]; cbn [main_op opcode_u8] in HM; unfold bitwise in HM; match type of HM with (if ?q then _ else _) = _ => destruct q eqn:Q; [|discriminate HM] end; injection HM as <-; apply one_ok; left; split; [|exact I];
     unfold item_ok; apply Z.eqb_eq in Q; rewrite zip_len by exact Q; unfold typed, item_ok in *; tauto).
  - (* DEPTH *) injection HM as <-. exists [enc (zlen rest)]. split; [reflexivity|]. split; [|split; [intros N; contradiction|intros _; delta_tac]].
    constructor; [|constructor]. left. apply typed_enc. pose proof (zlen_nonneg rest). unfold script_int. lia.
  - (* PICK *) cbn [main_op opcode_u8] in HM. destruct (num y) as [k|]; [|discriminate HM]. destruct (0 <=? k); [|discriminate HM]. destruct (nth_error rest (Z.to_nat k)) as [x|] eqn:X; [|discriminate HM].
    injection HM as <-. exists [x]. split; [reflexivity|]. split; [|split; intros _; [apply order_none; reflexivity|delta_tac]]. constructor; [|constructor]. left. split; [|exact I].
    apply nth_error_In in X. rewrite Forall_forall in IR. now apply IR.
  - (* CAT *) cbn [main_op opcode_u8] in HM. destruct (zlen y + zlen y0 <=? MAX_ELEMENT) eqn:Q; [|discriminate HM]. injection HM as <-. apply one_ok. left. split; [|exact I]. unfold item_ok. rewrite zlen_app. unfold MAX_ELEMENT in Q. lia.
  - (* SPLIT *) cbn [main_op opcode_u8] in HM. destruct (num y0) as [k|]; [|discriminate HM]. destruct ((0 <=? k) && (k <=? zlen y)); [|discriminate HM]. injection HM as <-.
    exists [firstn (Z.to_nat k) y; skipn (Z.to_nat k) y]. split; [reflexivity|]. split; [|split; intros _; [apply order_none; reflexivity|apply delta_changed; reflexivity]].
    destruct H1 as [L _]. unfold item_ok, zlen in L. constructor; [|constructor; [|constructor]]; left; (split; [|exact I]); unfold item_ok, zlen; [rewrite firstn_length|rewrite skipn_length]; lia.
  - (* NUM2BIN *) cbn [main_op opcode_u8] in HM. destruct (num y0) as [k|]; [|discriminate HM]. cbv zeta in HM. set (m := enc (script_num y)) in *.
    destruct ((0 <=? k) && (k <=? MAX_ELEMENT) && (zlen m <=? k)) eqn:Q; [|discriminate HM]. apply Some_inj in HM. subst s'. apply one_ok. left. split; [|exact I].
    unfold MAX_ELEMENT in Q. unfold item_ok. erewrite num2bin_len; [| | |reflexivity]; lia.
  - (* BIN2NUM *) cbn [main_op opcode_u8] in HM. cbv zeta in HM. destruct (zlen (enc (script_num y)) <=? 4) eqn:Q; [|discriminate HM]. apply Some_inj in HM. subst s'. apply one_ok. left. apply typed_enc_short. lia.
  - (* SIZE *) injection HM as <-. exists [y; enc (zlen y)]. split; [reflexivity|]. split; [|split; intros _; [apply order_none; reflexivity|delta_tac]].
    destruct H1 as [L _]. pose proof (zlen_nonneg y). constructor; [left; split; [exact L|exact I]|]. constructor; [|constructor]. left. apply typed_enc. unfold item_ok in L. unfold script_int. lia.
  - (* NUMEQUALVERIFY *) cbn [main_op opcode_u8] in HM. unfold test2 in HM. destruct (binary _ _) eqn:B in HM; [|discriminate HM]. apply binary_inv in B. destruct B as (nx & ny & nv & _ & _ & _ & ->).
    apply verify_inv in HM. subst s'. apply none_ok. auto.
  - (* WITHIN *) cbn [main_op opcode_u8] in HM. destruct (num y); [|discriminate HM]. destruct (num y0); [|discriminate HM]. destruct (num y1); [|discriminate HM]. injection HM as <-. apply one_ok. left. apply typed_bool.
Qed.

(** An opcode on top of the main stack, as a step of the machine. *)
Lemma step_on_top E c bs after s a x co : on_top c = true -> forallb (fun b => b) x = true ->
  step E bs (Exec (opcode_u8 c)) after (Machine s a x co) = option_map (fun s' => Machine s' a x (match c with OP_CODESEPARATOR => after | _ => co end)) (main_op E co (opcode_u8 c) s).
Proof.
  intros OT A. assert (A' : active (Machine s a x co) = true) by exact A.
  destruct c; try discriminate OT; cbv beta iota delta [step opcode_u8]; rewrite ?A'; reflexivity.
Qed.

Lemma wrong_type E c b code ins rest j t v : opcode_behavior c = Ok b -> on_top c = true -> length ins = length (b_input_types b) ->
  nth_error (b_input_types b) j = Some t -> t = TInteger \/ t = TBoolean -> nth_error ins j = Some v -> num v = None ->
  c <> OP_VERIFY -> c <> OP_CHECKLOCKTIMEVERIFY -> c <> OP_CHECKSEQUENCEVERIFY -> ~ (c = OP_NUM2BIN /\ j = 0%nat) ->
  main_op E code (opcode_u8 c) (rev ins ++ rest) = None.
Proof.
  intros HB OT L T TT V N C1 C2 C3 C4.
  destruct c; try discriminate OT; try discriminate HB; cbn [opcode_behavior opcode_is_disabled] in HB; apply Ok_inj in HB; subst b; cbn [b_input_types length] in L, T; try contradiction;
    repeat (destruct ins as [|?y ins]; cbn [length] in L; try discriminate L);
    (destruct j as [|[|[|[|[|[|j]]]]]]; cbn [nth_error] in T, V; try discriminate T; try (destruct j; discriminate T); injection V as ->; injection T as <-; try (destruct TT; discriminate));
    cbn [rev app main_op opcode_u8]; unfold nums, nums2, test2, unary, binary, verify_top; cbv beta iota; rewrite ?N; try reflexivity;
    repeat match goal with |- context[match num ?a with Some _ => _ | None => _ end] => destruct (num a) end; try reflexivity.
  exfalso. apply C4. auto.
Qed.

Lemma total E c b code ins rest : opcode_behavior c = Ok b -> on_top c = true -> partial_op c = false -> Forall2 typed (b_input_types b) ins ->
  exists s', main_op E code (opcode_u8 c) (rev ins ++ rest) = Some s'.
Proof.
  intros HB OT P TI.
  assert (B : forall v, typed TBoolean v -> exists n, num v = Some n) by (intros v [_ [->| ->]]; eexists; reflexivity).
  assert (B' : forall v, typed TInteger v -> exists n, num v = Some n) by (intros v [_ H]; exact H).
  destruct c; try discriminate OT; try discriminate HB; try discriminate P; cbn [opcode_behavior opcode_is_disabled] in HB; apply Ok_inj in HB; subst b; cbn [b_input_types] in TI; fwd_inv;
    cbn [rev app main_op opcode_u8]; unfold nums, nums2, test2, unary, binary; cbv beta iota;
    repeat match goal with H : typed TBoolean ?v |- _ => apply B in H; destruct H as [? H]; rewrite H | H : typed TInteger ?v |- _ => apply B' in H; destruct H as [? H]; rewrite H end;
    cbv beta iota; cbn [option_map]; eexists; reflexivity.
Qed.
