From Coq Require Import Lia.
From Verif Require Import Base BaseLemmas Model_ByteArray Model_Opcode Model_Script Model_Address Model_Hash Model_Text Spec_Hash Spec_Script Spec_Text Prop_Hash.
Local Open Scope string_scope.
Local Open Scope list_scope.
Local Open Scope Z_scope.

(** ** Numerals *)
Lemma digits_loop_ok : forall fuel n acc, 0 <= n -> Z.log2 n <= Z.of_nat fuel ->
  exists s, numeral n s /\ digits_loop fuel n acc = s ++ acc.
Proof.
  induction fuel as [|f IH]; intros n acc Hn Hf; cbn [digits_loop]; destruct (n <? 10) eqn:E.
  - apply Z.ltb_lt in E. exists [48 + n]. split; [constructor; lia|]. rewrite Z.mod_small by lia. reflexivity.
  - apply Z.ltb_ge in E. exfalso. assert (Z.log2 10 <= Z.log2 n) as K by (apply Z.log2_le_mono; lia). change (Z.log2 10) with 3 in K. lia.
  - apply Z.ltb_lt in E. exists [48 + n]. split; [constructor; lia|]. rewrite Z.mod_small by lia. reflexivity.
  - apply Z.ltb_ge in E. destruct (IH (n / 10) (48 + n mod 10 :: acc)) as (s & Hs & Es).
    + apply Z.div_pos; lia.
    + assert (n / 10 <= n / 2) as K1 by (apply Z.div_le_compat_l; lia).
      assert (Z.log2 (n / 10) <= Z.log2 (n / 2)) as K2 by (apply Z.log2_le_mono; exact K1).
      assert (Z.log2 (n / 2) = Z.log2 n - 1) as K3.
      { rewrite <- Z.div2_div, Z.div2_spec, Z.log2_shiftr; [|lia]. assert (Z.log2 10 <= Z.log2 n) as K by (apply Z.log2_le_mono; lia).
        change (Z.log2 10) with 3 in K. lia. }
      lia.
    + exists (s ++ [48 + n mod 10]). split.
      * pose proof (Z.div_mod n 10 ltac:(lia)) as D. pose proof (Z.mod_pos_bound n 10 ltac:(lia)) as B.
        rewrite D at 1. apply NumMore; [|lia|exact Hs]. apply Z.div_str_pos. lia.
      * rewrite Es, <- app_assoc. reflexivity.
Qed.
Lemma digits_ok : forall n, 0 <= n -> numeral n (digits n).
Proof.
  intros n Hn. unfold digits. pose proof (Z.log2_nonneg n) as L.
  destruct (digits_loop_ok (Z.to_nat (Z.log2 n)) n [] Hn ltac:(lia)) as (s & Hs & E). rewrite E, app_nil_r. exact Hs.
Qed.
Lemma numeral_nonneg : forall n s, numeral n s -> 0 <= n.
Proof. induction 1; lia. Qed.
Definition val (s : list Z) : Z := fold_left (fun a c => 10 * a + (c - 48)) s 0.
Lemma numeral_val : forall n s, numeral n s -> val s = n.
Proof. unfold val. induction 1 as [d H|n d s H1 H2 H3 IH]; [cbn [fold_left]; lia|]. rewrite fold_left_app, IH. cbn [fold_left]. lia. Qed.
Lemma numeral_fun : forall n s, numeral n s -> forall s', numeral n s' -> s = s'.
Proof.
  assert (forall n s, numeral n s -> forall n' s', numeral n' s' -> n = n' -> s = s') as K; [|intros n s H s' H'; eapply K; [exact H|exact H'|reflexivity]].
  induction 1 as [d H|n d s H1 H2 H3 IH]; intros n' s' H' E; destruct H' as [d' B|m d' t B1 B2 B3].
  - now subst.
  - exfalso. lia.
  - exfalso. lia.
  - assert (d = d') by lia. assert (n = m) by lia. subst. f_equal. eapply IH; [exact B3|reflexivity].
Qed.
Lemma numeral_chars : forall n s, numeral n s -> s <> [] /\ Forall (fun c => 48 <= c <= 57) s.
Proof.
  induction 1 as [d H|n d s H1 H2 H3 [IH1 IH2]].
  - split; [discriminate|]. constructor; [lia|constructor].
  - split; [destruct s; discriminate|]. apply Forall_app. split; [exact IH2|]. constructor; [lia|constructor].
Qed.
Lemma int_display_ok : forall v, decimal v (int_display v).
Proof.
  intros v. unfold int_display, decimal. destruct (v <? 0) eqn:E.
  - apply Z.ltb_lt in E. right. split; [exact E|]. exists (digits (- v)). split; [reflexivity|]. apply digits_ok. lia.
  - apply Z.ltb_ge in E. left. split; [exact E|]. now apply digits_ok.
Qed.
Lemma decimal_fun : forall v s s', decimal v s -> decimal v s' -> s = s'.
Proof.
  intros v s s' [[H1 H2]|[H1 (d & -> & H2)]] [[H1' H2']|[H1' (d' & -> & H2')]]; try lia.
  - eapply numeral_fun; eassumption.
  - f_equal. eapply numeral_fun; eassumption.
Qed.
Lemma decimal_chars : forall v s, decimal v s -> s <> [] /\ Forall (fun c => c = 45 \/ 48 <= c <= 57) s.
Proof.
  intros v s [[H1 H2]|[H1 (d & -> & H2)]]; destruct (numeral_chars _ _ H2) as [N F].
  - split; [exact N|]. eapply Forall_impl; [|exact F]. cbv beta. intros; lia.
  - split; [discriminate|]. change (text "-" ++ d) with (45 :: d). constructor; [now left|]. eapply Forall_impl; [|exact F]. cbv beta. intros; lia.
Qed.
Lemma decimal_inj : forall v v' s, decimal v s -> decimal v' s -> v = v'.
Proof.
  intros v v' s [[H1 H2]|[H1 (d & E & H2)]] [[H1' H2']|[H1' (d' & E' & H2')]].
  - apply numeral_val in H2, H2'. congruence.
  - exfalso. subst s. destruct (numeral_chars _ _ H2) as [_ F]. change (text "-" ++ d') with (45 :: d') in F. inversion F; subst. lia.
  - exfalso. subst s. destruct (numeral_chars _ _ H2') as [_ F]. change (text "-" ++ d) with (45 :: d) in F. inversion F; subst. lia.
  - rewrite E in E'. change (45 :: d = 45 :: d') in E'. inversion E'; subst. apply numeral_val in H2, H2'. lia.
Qed.
Lemma int_display_iff : forall v s, int_display v = s <-> decimal v s.
Proof.
  intros v s. split; [intros <-; apply int_display_ok|]. intros H. eapply decimal_fun; [apply int_display_ok|exact H].
Qed.
Lemma int_display_inj : forall v v', int_display v = int_display v' -> v = v'.
Proof. intros v v' E. eapply decimal_inj; [apply int_display_ok|]. rewrite E. apply int_display_ok. Qed.

(** ** Hexadecimal *)
Lemma hex_of_iff : forall d s, bytes_ok d -> (hex_encode d = s <-> hex_of d s).
Proof.
  intros d s H. split.
  - intros <-. split; [now apply hex_encode_text|now apply hex_encode_lower].
  - intros [A B]. symmetry. now apply lower_text_unique.
Qed.
Lemma hex_inj : forall d d', bytes_ok d -> bytes_ok d' -> hex_encode d = hex_encode d' -> d = d'.
Proof. intros d d' H H' E. eapply hex_text_fun; [now apply hex_encode_text|]. rewrite E. now apply hex_encode_text. Qed.
Lemma hex_of_bytes : forall d s, hex_of d s -> bytes_ok d.
Proof. intros d s [H _]. induction H as [|a b h l s d Ha Hb Hs IH]; [constructor|]. constructor; [|exact IH].
  apply digit_range in Ha, Hb. unfold byte_ok. lia. Qed.

(** ** Opcode names *)
Definition read_opcode (t : list Z) : option opcode := find (fun c => bytes_eqb (text (opcode_name c)) t) (FIRST_UNDEFINED_OP_VALUE :: all_opcodes).
Lemma read_opcode_ok : forall c, read_opcode (text (opcode_name c)) = Some c.
Proof. destruct c; vm_compute; reflexivity. Qed.
Lemma opcode_display_inj : forall c c', opcode_display c = opcode_display c' -> c = c'.
Proof. unfold opcode_display. intros c c' E. pose proof (read_opcode_ok c) as H. rewrite E, read_opcode_ok in H. congruence. Qed.
Definition name_char (c : Z) : bool := ((48 <=? c) && (c <=? 57)) || ((65 <=? c) && (c <=? 90)) || (c =? 95).
Lemma opcode_chars : forall c, exists x r, opcode_display c = x :: r /\ (x = 79 \/ x = 70) /\ forallb name_char (x :: r) = true.
Proof.
  assert (forall c : opcode, forallb name_char (opcode_display c) = true) as H by (destruct c; vm_compute; reflexivity).
  intros c. specialize (H c). assert (exists x r, opcode_display c = x :: r /\ (x = 79 \/ x = 70)) as (x & r & E & K).
  { destruct c; (eexists; eexists; split; [vm_compute; reflexivity|]); (now left) || (now right). }
  exists x, r. rewrite <- E. auto.
Qed.
Lemma opcode_not_bool : forall (c : opcode) (b : bool), opcode_display c <> (if b then text "OP_TRUE" else text "OP_FALSE").
Proof. assert (read_opcode (text "OP_TRUE") = None) as H by (vm_compute; reflexivity).
  assert (read_opcode (text "OP_FALSE") = None) as H' by (vm_compute; reflexivity).
  intros c b E. unfold opcode_display in E. pose proof (read_opcode_ok c) as R. destruct b; rewrite E in R; congruence. Qed.

(** ** Ops *)
Lemma lower_not_space : forall s, Forall lower_hex s -> Forall (fun c => c <> 32) s.
Proof. intros s H. eapply Forall_impl; [|exact H]. unfold lower_hex. cbv beta. intros; lia. Qed.
Lemma op_display_iff : forall o s, printable o -> (op_display o = s <-> op_text o s).
Proof.
  intros o s P. split.
  - intros <-. destruct o as [c|b|a m|b|i]; cbn [op_display].
    + constructor.
    + constructor. apply (proj1 (hex_of_iff [b] _ ltac:(constructor; [cbn [printable] in P; unfold byte_ok; lia|constructor]))). reflexivity.
    + constructor. now apply hex_of_iff.
    + destruct b; constructor.
    + constructor. apply int_display_ok.
  - intros H. destruct H; cbn [op_display].
    + reflexivity.
    + apply hex_of_iff in H; [exact H|now apply hex_of_bytes with s].
    + f_equal. apply hex_of_iff in H; [exact H|exact P].
    + reflexivity.
    + reflexivity.
    + now apply int_display_iff.
Qed.
Lemma op_word : forall o, printable o -> word (op_display o).
Proof.
  intros o P. destruct o as [c|b|a m|b|i]; cbn [op_display].
  - destruct (opcode_chars c) as (x & r & E & _ & F). rewrite E. split; [discriminate|]. apply Forall_forall. intros z Hz.
    rewrite forallb_forall in F. specialize (F z Hz). unfold name_char in F. intros ->. discriminate.
  - split; [discriminate|]. cbn [printable] in P. apply lower_not_space. apply (hex_encode_lower [b]). constructor; [unfold byte_ok; lia|constructor].
  - split; [discriminate|]. apply Forall_app. split; [repeat constructor; discriminate|]. apply lower_not_space, hex_encode_lower, P.
  - destruct b; (split; [discriminate|]); repeat constructor; discriminate.
  - destruct (decimal_chars _ _ (int_display_ok i)) as [N F]. split; [exact N|]. eapply Forall_impl; [|exact F]. cbv beta. intros; lia.
Qed.
Definition kind (w : list Z) : Z :=
  match w with
  | x :: r => if (x =? 79) || (x =? 70) then 0 else if 98 <=? x then 1 else match r with 120 :: _ => 2 | _ => 3 end
  | [] => 4
  end.
Lemma hex_digit_high : forall v, 10 <= v <= 15 -> 97 <= hex_digit v <= 102 /\ (11 <= v -> 98 <= hex_digit v).
Proof. intros v H. unfold hex_digit. destruct (v <? 10) eqn:E; [apply Z.ltb_lt in E; lia|]. lia. Qed.
Lemma op_kind : forall o, printable o ->
  kind (op_display o) = match o with OCode _ | OPushBool _ => 0 | OInvalid _ => 1 | OPushArray _ _ => 2 | OPushInt _ => 3 end.
Proof.
  intros o P. destruct o as [c|b|a m|b|i]; cbn [op_display].
  - destruct (opcode_chars c) as (x & r & -> & [-> | ->] & _); reflexivity.
  - cbn [printable] in P. unfold byte_display, kind. assert (11 <= b / 16 <= 15) as K by (split; [apply Z.div_le_lower_bound; lia|apply Z.lt_succ_r, Z.div_lt_upper_bound; lia]).
    destruct (hex_digit_high (b / 16) ltac:(lia)) as [R1 R2]. specialize (R2 ltac:(lia)).
    destruct (_ =? 79) eqn:E1; [apply Z.eqb_eq in E1; lia|]. destruct (_ =? 70) eqn:E2; [apply Z.eqb_eq in E2; lia|]. cbn [orb].
    destruct (98 <=? _) eqn:E3; [reflexivity|apply Z.leb_gt in E3; lia].
  - reflexivity.
  - destruct b; reflexivity.
  - destruct (decimal_chars _ _ (int_display_ok i)) as [N F]. destruct (int_display i) as [|x r]; [congruence|]. unfold kind. inversion F as [|? ? Hx Hr]; subst.
    destruct (x =? 79) eqn:E1; [apply Z.eqb_eq in E1; lia|]. destruct (x =? 70) eqn:E2; [apply Z.eqb_eq in E2; lia|]. cbn [orb].
    destruct (98 <=? x) eqn:E3; [apply Z.leb_le in E3; lia|]. destruct r as [|y r]; [reflexivity|]. inversion Hr as [|? ? Hy _]; subst.
    assert (y <> 120) as Ny by lia. clear - Ny. destruct y as [|p|p]; try reflexivity. do 7 (destruct p as [p|p|]; try reflexivity). congruence.
Qed.
Lemma op_display_inj : forall o o', printable o -> printable o' -> op_display o = op_display o' -> same_instr o o'.
Proof.
  intros o o' P P' E. pose proof (op_kind o P) as K. pose proof (op_kind o' P') as K'. rewrite E in K. rewrite K in K'. clear K.
  destruct o as [c|b|a m|b|i], o' as [c'|b'|a' m'|b'|i']; try discriminate; cbn [same_instr]; cbn [op_display] in E; cbn [printable] in P, P'.
  - f_equal. now apply opcode_display_inj.
  - exfalso. exact (opcode_not_bool _ _ E).
  - f_equal. assert ([b] = [b']) as Q; [|now inversion Q]. apply hex_inj; [constructor; [unfold byte_ok; lia|constructor]..|exact E].
  - apply hex_inj; [exact P|exact P'|]. now apply app_inv_head in E.
  - exfalso. symmetry in E. exact (opcode_not_bool _ _ E).
  - destruct b, b'; try reflexivity; discriminate.
  - f_equal. now apply int_display_inj.
Qed.

(** ** Scripts *)
Lemma words_inj : forall ws ws', Forall word ws -> Forall word ws' ->
  concat (map (fun w => w ++ [32]) ws) = concat (map (fun w => w ++ [32]) ws') -> ws = ws'.
Proof.
  assert (forall a b r r', Forall (fun c : Z => c <> 32) a -> Forall (fun c => c <> 32) b -> (a ++ [32]) ++ r = (b ++ [32]) ++ r' -> a = b /\ r = r') as K.
  { induction a as [|x a IH]; intros b r r' Ha Hb E; destruct b as [|y b]; cbn [app] in E.
    - inversion E. auto.
    - inversion E; subst. inversion Hb; congruence.
    - inversion E; subst. inversion Ha; congruence.
    - inversion Ha; inversion Hb; subst. inversion E; subst. destruct (IH b r r') as [-> ->]; auto. }
  induction ws as [|w ws IH]; intros ws' H H' E; destruct ws' as [|w' ws']; cbn [map concat] in E.
  - reflexivity.
  - destruct w'; discriminate.
  - destruct w; discriminate.
  - inversion H as [|? ? [_ W] HW]; inversion H' as [|? ? [_ W'] HW']; subst. destruct (K _ _ _ _ W W' E) as [-> E']. f_equal. now apply IH.
Qed.
Lemma script_display_words : forall s, script_display s = concat (map (fun w => w ++ [32]) (map (fun t => op_display (t_op t)) s)).
Proof. intros s. unfold script_display. rewrite flat_map_concat_map, map_map. reflexivity. Qed.
Lemma all_words : forall s, Forall printable (map t_op s) -> Forall word (map (fun t => op_display (t_op t)) s).
Proof. induction s as [|t s IH]; intros H; [constructor|]. inversion H; subst. constructor; [now apply op_word|now apply IH]. Qed.
Lemma script_display_iff : forall s t, Forall printable (map t_op s) -> (script_display s = t <-> script_text (map t_op s) t).
Proof.
  intros s t H. rewrite script_display_words. split.
  - intros <-. exists (map (fun t => op_display (t_op t)) s). split; [|split; [now apply all_words|reflexivity]].
    induction s as [|x s IH]; [constructor|]. inversion H; subst. constructor; [now apply op_display_iff|now apply IH].
  - intros (ws & F & _ & ->). do 2 f_equal. revert ws F. induction s as [|x s IH]; intros ws F; inversion F; subst; [reflexivity|].
    inversion H; subst. cbn [map]. f_equal; [now apply op_display_iff|now apply IH].
Qed.
Lemma script_display_inj : forall s s', Forall printable (map t_op s) -> Forall printable (map t_op s') -> script_display s = script_display s' ->
  Forall2 same_instr (map t_op s) (map t_op s').
Proof.
  intros s s' H H' E. rewrite !script_display_words in E. apply words_inj in E; [|now apply all_words..].
  revert s' H' E. induction s as [|t s IH]; intros [|t' s'] H' E; try discriminate; [constructor|]. cbn [map] in E. inversion E as [[E1 E2]].
  inversion H; inversion H'; subst. constructor; [now apply op_display_inj|now apply IH].
Qed.
Lemma same_instr_means : forall o o', same_instr o o' -> forall i, means o i -> means o' i.
Proof. intros o o' H i M. destruct o, o'; cbn [same_instr] in H; try discriminate; try (injection H; intros; subst; exact M); try (rewrite <- H; exact M).
  inversion M; subst. rewrite H. constructor. Qed.
Lemma same_instr_sym : forall o o', same_instr o o' -> same_instr o' o.
Proof. intros o o' H. destruct o, o'; cbn [same_instr] in *; congruence. Qed.
