(** Lemmas about the JSON form: what is written is read back. *)
From Verif Require Import Base BaseLemmas Model_Integer Spec_Integer Model_ByteArray Proofs_ByteArray Model_Opcode Model_Script Proofs_Script Model_Code Model_Json Spec_Json.
Local Open Scope Z_scope.

Section J.
Variable enc : list Z -> string.
Variable dec : string -> option (list Z).
Hypothesis RT : base64_ok enc dec.

Definition bound (d : json_data) : nat := length (jd_data_b64 d) + length (jd_byte_arrays d) + length (jd_strings d).
Definition prefix {A} (l l' : list A) : Prop := exists r, l' = l ++ r.
Lemma prefix_refl {A} (l : list A) : prefix l l. Proof. exists []. now rewrite app_nil_r. Qed.
Lemma prefix_trans {A} (a b c : list A) : prefix a b -> prefix b c -> prefix a c.
Proof. intros (x & ->) (y & ->). exists (x ++ y). now rewrite app_assoc. Qed.
Lemma prefix_nth {A} (l l' : list A) i x : prefix l l' -> nth_error l i = Some x -> nth_error l' i = Some x.
Proof. intros (r & ->) H. rewrite nth_error_app1; [exact H|]. apply nth_error_Some. congruence. Qed.
Lemma prefix_snoc {A} (l : list A) x : prefix l (l ++ [x]). Proof. now exists [x]. Qed.
Lemma prefix_len {A} (l l' : list A) : prefix l l' -> (length l <= length l')%nat. Proof. intros (r & ->). rewrite app_length. lia. Qed.
Definition ext (d d' : json_data) : Prop := prefix (jd_data_b64 d) (jd_data_b64 d') /\ prefix (jd_byte_arrays d) (jd_byte_arrays d') /\ prefix (jd_strings d) (jd_strings d').
Lemma ext_refl d : ext d d. Proof. repeat split; apply prefix_refl. Qed.
Lemma ext_trans a b c : ext a b -> ext b c -> ext a c. Proof. intros (A1 & A2 & A3) (B1 & B2 & B3). repeat split; eapply prefix_trans; eassumption. Qed.
Lemma ext_bound d d' : ext d d' -> (bound d <= bound d')%nat.
Proof. intros (A & B & C). apply prefix_len in A, B, C. unfold bound. lia. Qed.

(** ** invariants of the writer's index maps and of the table *)
Record winv (d : json_data) : Prop := {
  w_str : forall s i, In (s, i) (jd_string_indices d) <-> nth_error (jd_strings d) i = Some s;
  w_str1 : NoDup (map fst (jd_string_indices d));
  w_dat : forall b i, In (b, i) (jd_data_indices d) -> nth_error (jd_data_b64 d) i = Some (enc b) /\ bytes_ok b;
  w_dat1 : forall x i, nth_error (jd_data_b64 d) i = Some x -> exists b, In (b, i) (jd_data_indices d) /\ x = enc b;
  w_dat2 : NoDup (map fst (jd_data_indices d));
  w_arr : forall idx j, nth_error (jd_byte_arrays d) idx = Some j -> (jb_data j < length (jd_data_b64 d))%nat /\
            opt_all (fun n => (n < length (jd_strings d))%nat) (jb_name j) /\ opt_all (Forall (fun p => (p < idx)%nat)) (jb_preimages j)
}.
Lemma winv_empty : winv empty_data.
Proof.
  split; cbn [empty_data jd_string_indices jd_strings jd_data_indices jd_data_b64 jd_byte_arrays map].
  - intros s i. split; [intros []|destruct i; discriminate].
  - constructor.
  - intros b i [].
  - intros x i. destruct i; discriminate.
  - constructor.
  - intros idx j. destruct idx; discriminate.
Qed.

(** ** the reader's cache *)
Definition cinv (d : json_data) : Prop := forall b i, In (b, i) (jd_data_indices d) -> exists s, nth_error (jd_data_b64 d) i = Some s /\ dec s = Some b.
Definition same (d d' : json_data) : Prop := jd_data_b64 d' = jd_data_b64 d /\ jd_byte_arrays d' = jd_byte_arrays d /\ jd_strings d' = jd_strings d.
Lemma same_refl d : same d d. Proof. repeat split. Qed.
Lemma same_trans a b c : same a b -> same b c -> same a c. Proof. intros (A1 & A2 & A3) (B1 & B2 & B3). repeat split; congruence. Qed.
Lemma same_ext d d' : same d d' -> ext d d'. Proof. intros (A & B & C). unfold ext. rewrite A, B, C. repeat split; apply prefix_refl. Qed.

(** [g b] reads [a] in every extension of [d] *)
Definition good {A B} (g : B -> reader A) (d : json_data) (a : A) (b : B) : Prop :=
  forall d1, ext d d1 -> cinv d1 -> exists d2, g b d1 = Some (Ok (a, d2)) /\ same d1 d2 /\ cinv d2.
Lemma good_ext {A B} (g : B -> reader A) d d' a b : ext d d' -> good g d a b -> good g d' a b.
Proof. intros H G d1 H1. apply G. eapply ext_trans; eassumption. Qed.
(** writer [f] and reader [g] fit together *)
Definition rt {A B} (f : A -> json_data -> B * json_data) (g : B -> reader A) (V : A -> Prop) (F : nat -> B -> Prop) : Prop :=
  forall a d, V a -> winv d -> exists b d', f a d = (b, d') /\ winv d' /\ ext d d' /\ good g d' a b /\ F (bound d') b.

Lemma rbind_ok {A B} (r : reader A) (f : A -> reader B) d a d' : r d = Some (Ok (a, d')) -> rbind r f d = f a d'.
Proof. intros H. unfold rbind. now rewrite H. Qed.

Definition mono {B} (F : nat -> B -> Prop) : Prop := forall n m b, (n <= m)%nat -> F n b -> F m b.
Lemma mono_list {B} (F : nat -> B -> Prop) : mono F -> mono (fun n => Forall (F n)).
Proof. intros H n m l Hle. apply Forall_impl. intros b. now apply H. Qed.
Lemma mono_opt {B} (F : nat -> B -> Prop) : mono F -> mono (fun n => opt_all (F n)).
Proof. intros H n m [b|] Hle; cbn; [now apply H|auto]. Qed.

Lemma rt_smap {A B} (f : A -> json_data -> B * json_data) g V F : mono F -> rt f g V F -> rt (smap f) (rmap g) (Forall V) (fun n => Forall (F n)).
Proof.
  intros HM H. intros l. induction l as [|a l IH]; intros d HV W; cbn [smap].
  - exists [], d. repeat (split; [first [reflexivity|exact W|apply ext_refl]|]). split; [|constructor]. intros d1 _ C. exists d1. repeat split; assumption || reflexivity.
  - inversion HV as [|? ? Va Vl]; subst. destruct (H a d Va W) as (b & d1 & -> & W1 & X1 & G1 & F1). destruct (IH d1 Vl W1) as (bs & d2 & -> & W2 & X2 & G2 & F2).
    exists (b :: bs), d2. split; [reflexivity|]. split; [exact W2|]. split; [eapply ext_trans; eassumption|]. split; [|constructor; [eapply HM; [|exact F1]; now apply ext_bound|exact F2]].
    intros d3 X3 C3. destruct (good_ext _ _ _ _ _ X2 G1 d3 X3 C3) as (d4 & E4 & S4 & C4). destruct (G2 d4) as (d5 & E5 & S5 & C5); [eapply ext_trans; [exact X3|now apply same_ext]|exact C4|].
    exists d5. cbn [rmap]. rewrite (rbind_ok _ _ _ _ _ E4), (rbind_ok _ _ _ _ _ E5). split; [reflexivity|]. split; [eapply same_trans; eassumption|exact C5].
Qed.
Lemma rt_soption {A B} (f : A -> json_data -> B * json_data) g V F : rt f g V F -> rt (soption f) (roption g) (opt_all V) (fun n => opt_all (F n)).
Proof.
  intros H [a|] d HV W; cbn [soption].
  - destruct (H a d HV W) as (b & d1 & -> & W1 & X1 & G1 & F1). exists (Some b), d1. repeat (split; [first [reflexivity|assumption]|]). split; [|exact F1].
    intros d3 X3 C3. destruct (G1 d3 X3 C3) as (d4 & E4 & S4 & C4). exists d4. cbn [roption]. rewrite (rbind_ok _ _ _ _ _ E4). repeat split; try apply S4; assumption.
  - exists None, d. repeat (split; [first [reflexivity|exact W|apply ext_refl]|]). split; [|exact I]. intros d1 _ C. exists d1. repeat split; assumption || reflexivity.
Qed.

(** ** strings *)
Lemma find_string_in s m i : find_string s m = Some i -> In (s, i) m.
Proof. induction m as [|[k v] m IH]; cbn [find_string]; [discriminate|]. destruct (String.eqb_spec k s) as [->|]; [intros E; injection E as ->; now left|right; auto]. Qed.
Lemma find_string_none s m : find_string s m = None -> ~ In s (map fst m).
Proof. induction m as [|[k v] m IH]; cbn [find_string map]; [intros _ []|]. destruct (String.eqb_spec k s); [discriminate|]. intros H [X|X]; [auto|exact (IH H X)]. Qed.
Lemma nth_snoc {A} (l : list A) x i y : nth_error (l ++ [x]) i = Some y <-> nth_error l i = Some y \/ (i = length l /\ x = y).
Proof.
  destruct (Nat.lt_trichotomy i (length l)) as [H|[H|H]].
  - rewrite nth_error_app1 by exact H. split; [auto|]. intros [X|[X _]]; [exact X|lia].
  - subst i. rewrite nth_error_app2, Nat.sub_diag by lia. cbn. split; [intros E; injection E as ->; auto|]. intros [X|[_ ->]]; [|reflexivity]. assert (length l < length l)%nat by (apply nth_error_Some; congruence). lia.
  - rewrite (proj2 (nth_error_None _ _)) by (rewrite app_length; cbn; lia). split; [discriminate|]. intros [X|[X _]]; [|lia]. assert (i < length l)%nat by (apply nth_error_Some; congruence). lia.
Qed.
Lemma rt_string : rt insert_string get_string (fun _ => True) (fun n i => (i < n)%nat).
Proof.
  intros s d _ W. unfold insert_string. destruct (find_string s (jd_string_indices d)) as [i|] eqn:E.
  - apply find_string_in in E. apply (w_str d W) in E. exists i, d. repeat (split; [first [reflexivity|exact W|apply ext_refl]|]). split.
    + intros d1 (_ & _ & X) C. exists d1. unfold get_string. rewrite (prefix_nth _ _ _ _ X E). repeat split; assumption || reflexivity.
    + assert (i < length (jd_strings d))%nat by (apply nth_error_Some; congruence). unfold bound. lia.
  - apply find_string_none in E. eexists _, _. split; [reflexivity|]. split; [|split; [|split]].
    + destruct W as [A B C D N G]. split; cbn [jd_string_indices jd_strings jd_data_indices jd_data_b64 jd_byte_arrays]; try assumption.
      * intros s' i. rewrite nth_snoc, <- A. cbn [In]. split.
        -- intros [X|X]; [injection X as <- <-; right; auto|left; exact X].
        -- intros [X|[-> ->]]; [right; exact X|left; reflexivity].
      * cbn [map fst]. constructor; [exact E|exact B].
      * intros idx j Hj. destruct (G idx j Hj) as (G1 & G2 & G3). split; [exact G1|]. split; [|exact G3]. rewrite app_length. cbn [length]. destruct (jb_name j); cbn in *; [lia|exact I].
    + split; [apply prefix_refl|]. split; [apply prefix_refl|apply prefix_snoc].
    + intros d1 (_ & _ & X) C. exists d1. unfold get_string. cbn [jd_strings] in X. rewrite (prefix_nth _ _ (length (jd_strings d)) s X) by (apply nth_snoc; auto). repeat split; assumption || reflexivity.
    + unfold bound. cbn [jd_data_b64 jd_byte_arrays jd_strings]. rewrite app_length. cbn. lia.
Qed.

(** ** data *)
Lemma find_left_in b m i : find_left b m = Some i -> In (b, i) m.
Proof. induction m as [|[k v] m IH]; cbn [find_left]; [discriminate|]. destruct (bytes_eqb k b) eqn:E; [apply bytes_eqb_spec in E; subst; intros X; injection X as ->; now left|right; auto]. Qed.
Lemma find_left_none b m : find_left b m = None -> ~ In b (map fst m).
Proof.
  induction m as [|[k v] m IH]; cbn [find_left map]; [intros _ []|]. destruct (bytes_eqb k b) eqn:E; [discriminate|]. intros H [X|X]; [cbn in X; subst; rewrite (proj2 (bytes_eqb_spec b b) eq_refl) in E; discriminate|exact (IH H X)].
Qed.
Lemma find_right_in i m b : find_right i m = Some b -> In (b, i) m.
Proof. induction m as [|[k v] m IH]; cbn [find_right]; [discriminate|]. destruct (Nat.eqb_spec v i) as [->|]; [intros X; injection X as ->; now left|right; auto]. Qed.
Lemma bimap_fresh b i m : ~ In b (map fst m) -> (forall k v, In (k, v) m -> v <> i) -> bimap_insert b i m = (b, i) :: m.
Proof.
  intros H1 H2. unfold bimap_insert. f_equal. induction m as [|[k v] m IH]; [reflexivity|]. cbn [filter fst snd].
  assert (bytes_eqb k b = false) as ->. { destruct (bytes_eqb k b) eqn:E; [|reflexivity]. apply bytes_eqb_spec in E. subst. exfalso. apply H1. now left. }
  rewrite (proj2 (Nat.eqb_neq v i)) by (eapply H2; now left). cbn [negb andb]. f_equal. apply IH; [intros X; apply H1; now right|]. intros k' v' X. eapply H2. right. exact X.
Qed.
Lemma get_data_good b i d : nth_error (jd_data_b64 d) i = Some (enc b) -> bytes_ok b -> good (get_data dec) d b i.
Proof.
  intros Hn Hb d1 (X & _) C. unfold get_data. pose proof (prefix_nth _ _ _ _ X Hn) as H1. destruct (find_right i (jd_data_indices d1)) as [b'|] eqn:E.
  - apply find_right_in in E. destruct (C _ _ E) as (s & Hs & Hd). assert (s = enc b) as -> by congruence. rewrite RT in Hd by exact Hb. injection Hd as ->. exists d1. repeat split; assumption || reflexivity.
  - rewrite H1, RT by exact Hb. eexists. split; [reflexivity|]. split; [repeat split|]. intros b' j Hin. cbn [jd_data_indices jd_data_b64] in *. unfold bimap_insert in Hin. destruct Hin as [Hin|Hin].
    + injection Hin as <- <-. exists (enc b). auto.
    + apply filter_In in Hin. apply C. tauto.
Qed.
Lemma rt_data : rt (ensure_data enc) (get_data dec) bytes_ok (fun n i => (i < n)%nat).
Proof.
  intros b d Hb W. unfold ensure_data. destruct (find_left b (jd_data_indices d)) as [i|] eqn:E.
  - apply find_left_in in E. destruct (w_dat d W _ _ E) as [H1 _]. exists i, d. repeat (split; [first [reflexivity|exact W|apply ext_refl]|]). split; [now apply get_data_good|].
    assert (i < length (jd_data_b64 d))%nat by (apply nth_error_Some; congruence). unfold bound. lia.
  - apply find_left_none in E. eexists _, _. split; [reflexivity|]. 
    rewrite bimap_fresh; [|exact E|]. 2:{ intros k v Hin. destruct (w_dat d W _ _ Hin) as [H1 _]. assert (v < length (jd_data_b64 d))%nat by (apply nth_error_Some; congruence). lia. }
    split; [|split; [|split]].
    + destruct W as [A B C D N G]. split; cbn [jd_string_indices jd_strings jd_data_indices jd_data_b64 jd_byte_arrays]; try assumption.
      * intros b' i [Hin|Hin]; [injection Hin as <- <-; split; [apply nth_snoc; auto|exact Hb]|]. destruct (C _ _ Hin) as [C1 C2]. split; [apply nth_snoc; auto|exact C2].
      * intros x i Hx. apply nth_snoc in Hx. destruct Hx as [Hx|[-> <-]]; [destruct (D _ _ Hx) as (b' & D1 & D2); exists b'; split; [now right|exact D2]|]. exists b. split; [now left|reflexivity].
      * cbn [map fst]. constructor; [exact E|exact N].
      * intros idx j Hj. destruct (G idx j Hj) as (G1 & G2 & G3). split; [|split; assumption]. rewrite app_length. cbn. lia.
    + split; [apply prefix_snoc|]. split; apply prefix_refl.
    + apply get_data_good; [|exact Hb]. cbn [jd_data_b64]. apply nth_snoc. auto.
    + unfold bound. cbn [jd_data_b64 jd_byte_arrays jd_strings]. rewrite app_length. cbn. lia.
Qed.

(** ** arrays *)
Fixpoint depth (a : barray) : nat :=
  match a with
  | BA _ _ _ p => S (match p with None => O | Some ps => (fix go (l : list barray) : nat := match l with [] => O | x :: r => Nat.max (depth x) (go r) end) ps end)
  end.
Definition arr_ok (fuel : nat) (a : barray) : Prop := deep_ok a /\ (depth a <= fuel)%nat.
Lemma insert_unfold data name f preimage d : insert_byte_array enc (BA data name f preimage) d =
  let '(preimages, d) := soption (smap (insert_byte_array enc)) preimage d in
  let '(name_idx, d) := soption insert_string name d in
  let '(data_idx, d) := ensure_data enc data d in
  push_byte_array (JsonByteArray data_idx f name_idx preimages) d.
Proof.
  cbn [insert_byte_array soption]. destruct preimage as [ps|]; [|reflexivity].
  assert (forall l d, (fix go (ps : list barray) (d : json_data) : list nat * json_data := match ps with [] => ([], d) | p :: r => let '(i, d) := insert_byte_array enc p d in let '(l, d) := go r d in (i :: l, d) end) l d = smap (insert_byte_array enc) l d) as ->; [|reflexivity].
  induction l as [|p l IH]; intros d0; cbn [smap]; [reflexivity|]. destruct (insert_byte_array enc p d0) as [i d1]. now rewrite IH.
Qed.
(** the entry just pushed *)
Definition rt1 {A B} (f : A -> json_data -> B * json_data) (g : B -> reader A) (F : nat -> B -> Prop) (a : A) : Prop :=
  forall d, winv d -> exists b d', f a d = (b, d') /\ winv d' /\ ext d d' /\ good g d' a b /\ F (bound d') b.
Lemma rt1_smap {A B} (f : A -> json_data -> B * json_data) g F l : mono F -> Forall (rt1 f g F) l -> rt1 (smap f) (rmap g) (fun n => Forall (F n)) l.
Proof.
  intros HM HF. assert (rt f g (fun a => rt1 f g F a) F) as H by (intros a d Ha; now apply Ha). pose proof (rt_smap f g _ F HM H) as R. intros d W. now apply R.
Qed.
Lemma rt1_soption {A B} (f : A -> json_data -> B * json_data) g F o : opt_all (rt1 f g F) o -> rt1 (soption f) (roption g) (fun n => opt_all (F n)) o.
Proof. intros HF. assert (rt f g (fun a => rt1 f g F a) F) as H by (intros a d Ha; now apply Ha). pose proof (rt_soption f g _ F H) as R. intros d W. now apply R. Qed.

Definition idx_ok (d : json_data) (i : nat) : Prop := (i < length (jd_byte_arrays d))%nat.
Lemma mono_lt : mono (fun n i => (i < n)%nat). Proof. intros n m b H. lia. Qed.

Definition goodA (fuel : nat) (d : json_data) (a : barray) (i : nat) : Prop := good (get_byte_array dec fuel) d a i /\ idx_ok d i.
Lemma idx_ok_ext d d' i : ext d d' -> idx_ok d i -> idx_ok d' i.
Proof. intros (_ & H & _) X. apply prefix_len in H. unfold idx_ok in *. lia. Qed.
Lemma insert_list_good fuel ps : Forall (fun a => forall d, winv d -> exists i d', insert_byte_array enc a d = (i, d') /\ winv d' /\ ext d d' /\ goodA fuel d' a i) ps ->
  forall d, winv d -> exists l d', smap (insert_byte_array enc) ps d = (l, d') /\ winv d' /\ ext d d' /\ good (rmap (get_byte_array dec fuel)) d' ps l /\ Forall (idx_ok d') l.
Proof.
  induction 1 as [|a ps Ha _ IH]; intros d W; cbn [smap].
  - exists [], d. repeat (split; [first [reflexivity|exact W|apply ext_refl]|]). split; [|constructor]. intros d1 _ C. exists d1. repeat split; assumption || reflexivity.
  - destruct (Ha d W) as (i & d1 & -> & W1 & X1 & G1 & I1). destruct (IH d1 W1) as (l & d2 & -> & W2 & X2 & G2 & I2).
    exists (i :: l), d2. split; [reflexivity|]. split; [exact W2|]. split; [eapply ext_trans; eassumption|]. split; [|constructor; [eapply idx_ok_ext; eassumption|exact I2]].
    intros d3 X3 C3. destruct (good_ext _ _ _ _ _ X2 G1 d3 X3 C3) as (d4 & E4 & S4 & C4). destruct (G2 d4) as (d5 & E5 & S5 & C5); [eapply ext_trans; [exact X3|now apply same_ext]|exact C4|].
    exists d5. cbn [rmap]. rewrite (rbind_ok _ _ _ _ _ E4), (rbind_ok _ _ _ _ _ E5). split; [reflexivity|]. split; [eapply same_trans; eassumption|exact C5].
Qed.
Lemma insert_good : forall a fuel d, arr_ok fuel a -> winv d -> exists i d', insert_byte_array enc a d = (i, d') /\ winv d' /\ ext d d' /\ goodA fuel d' a i.
Proof.
  assert (KEY : forall data name f preimage fuel d, bytes_ok data -> winv d ->
    (exists l d', soption (smap (insert_byte_array enc)) preimage d = (l, d') /\ winv d' /\ ext d d' /\ good (roption (rmap (get_byte_array dec fuel))) d' preimage l /\ opt_all (Forall (idx_ok d')) l) ->
    exists i d', insert_byte_array enc (BA data name f preimage) d = (i, d') /\ winv d' /\ ext d d' /\ goodA (S fuel) d' (BA data name f preimage) i).
  { intros data name f preimage fuel d Hb W (l & d1 & E1 & W1 & X1 & G1 & I1). rewrite insert_unfold, E1.
    destruct (rt_soption _ _ _ _ rt_string name d1) as (n & d2 & E2 & W2 & X2 & G2 & F2); [destruct name; exact I|exact W1|]. rewrite E2.
    destruct (rt_data data d2 Hb W2) as (k & d3 & E3 & W3 & X3 & G3 & F3). rewrite E3. unfold push_byte_array. eexists _, _. split; [reflexivity|].
    assert (X13 : ext d1 d3) by (eapply ext_trans; eassumption).
    set (j := JsonByteArray k f n l). set (d4 := JsonData _ _ _ _ _). assert (X4 : ext d3 d4) by (split; [apply prefix_refl|split; [apply prefix_snoc|apply prefix_refl]]).
    assert (Hk : (k < length (jd_data_b64 d3))%nat).
    { unfold get_data, good in G3. destruct (G3 (JsonData (jd_data_b64 d3) (jd_byte_arrays d3) (jd_strings d3) [] [])) as (dd & Ed & _); [repeat split; apply prefix_refl|intros ? ? []|]. cbn [jd_data_indices find_right jd_data_b64] in Ed.
      destruct (nth_error (jd_data_b64 d3) k) eqn:En; [apply nth_error_Some; congruence|discriminate]. }
    assert (Hn : opt_all (fun n => (n < length (jd_strings d3))%nat) n).
    { destruct n as [n|]; [|exact I]. cbn [opt_all]. destruct name as [name|]; [|cbn [soption] in E2; congruence]. 
      destruct (G2 (JsonData (jd_data_b64 d3) (jd_byte_arrays d3) (jd_strings d3) [] [])) as (dd & Ed & _); [exact X3|intros ? ? []|]. cbn [roption] in Ed. unfold rbind, get_string in Ed. cbn [jd_strings] in Ed.
      destruct (nth_error (jd_strings d3) n) eqn:En; [apply nth_error_Some; congruence|discriminate]. }
    assert (Hl : opt_all (Forall (fun p => (p < length (jd_byte_arrays d3))%nat)) l).
    { destruct l as [l|]; [|exact I]. cbn [opt_all] in *. eapply Forall_impl; [|exact I1]. intros i Hi. exact (idx_ok_ext _ _ _ X13 Hi). }
    split; [|split; [|split]].
    - destruct W3 as [A B C D N G]. split; try assumption. unfold d4. cbn [jd_byte_arrays jd_data_b64 jd_strings]. intros idx j' Hj. apply nth_snoc in Hj. destruct Hj as [Hj|[-> <-]]; [now apply G|]. subst j. cbn [jb_data jb_name jb_preimages]. auto.
    - eapply ext_trans; [exact X1|]. eapply ext_trans; [exact X13|exact X4].
    - intros d5 X5 C5. pose proof X5 as (_ & X5a & _). unfold d4 in X5a. cbn [jd_byte_arrays] in X5a. cbn [get_byte_array]. rewrite (prefix_nth _ _ (length (jd_byte_arrays d3)) j X5a) by (apply nth_snoc; auto). subst j. cbn [jb_preimages jb_data jb_name jb_function].
      assert (X45 : ext d3 d5) by (eapply ext_trans; eassumption).
      destruct (G1 d5) as (d6 & E6 & S6 & C6); [eapply ext_trans; eassumption|exact C5|]. rewrite (rbind_ok _ _ _ _ _ E6).
      destruct (G3 d6) as (d7 & E7 & S7 & C7); [eapply ext_trans; [exact X45|now apply same_ext]|exact C6|]. rewrite (rbind_ok _ _ _ _ _ E7).
      destruct (G2 d7) as (d8 & E8 & S8 & C8); [eapply ext_trans; [exact X3|]; eapply ext_trans; [exact X45|]; apply same_ext; eapply same_trans; eassumption|exact C7|]. rewrite (rbind_ok _ _ _ _ _ E8).
      exists d8. split; [reflexivity|]. split; [|exact C8]. eapply same_trans; [exact S6|]. eapply same_trans; eassumption.
    - unfold idx_ok, d4. cbn [jd_byte_arrays]. rewrite app_length. cbn. lia. }
  induction a as [data name f|data name f ps IH] using barray_ind'; intros fuel d [HD HF] W; cbn [depth] in HF; (destruct fuel as [|fuel]; [lia|]).
  - apply KEY; [apply HD|exact W|]. exists None, d. cbn [soption]. repeat (split; [first [reflexivity|exact W|apply ext_refl]|]). split; [|exact I]. intros d1 _ C. exists d1. repeat split; assumption || reflexivity.
  - destruct HD as [HD1 HD2]. apply KEY; [exact HD1|exact W|]. cbn [soption].
    assert (Forall (arr_ok fuel) ps) as HP.
    { assert (HF' : ((fix go (l : list barray) : nat := match l with [] => O | x :: r => Nat.max (depth x) (go r) end) ps <= fuel)%nat) by lia. clear - HD2 HF'.
      induction ps as [|p ps IHp]; constructor; [split; [apply HD2|lia]|]. apply IHp; [apply HD2|lia]. }
    destruct (insert_list_good fuel ps) with (d := d) as (l & d1 & -> & W1 & X1 & G1 & I1); [|exact W|].
    { rewrite Forall_forall in *. intros a Ha d0 W0. apply IH; [exact Ha| |exact W0]. now apply HP. }
    exists (Some l), d1. repeat (split; [first [reflexivity|assumption]|]). split; [|exact I1].
    intros d3 X3 C3. destruct (G1 d3 X3 C3) as (d4 & E4 & S4 & C4). exists d4. cbn [roption]. rewrite (rbind_ok _ _ _ _ _ E4). repeat split; try apply S4; assumption.
Qed.
Lemma rt_array fuel : rt (insert_byte_array enc) (get_byte_array dec fuel) (arr_ok fuel) (fun n i => (i < n)%nat).
Proof.
  intros a d Ha W. destruct (insert_good a fuel d Ha W) as (i & d' & E & W' & X & G & I). exists i, d'. do 3 (split; [assumption|]). split; [exact G|]. unfold idx_ok in I. unfold bound. lia.
Qed.
End J.
