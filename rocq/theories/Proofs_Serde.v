From Verif Require Import Base BaseLemmas Spec_Encoding Model_ByteArray Model_Opcode Model_Script Spec_Script Model_Code Spec_Code Spec_Wire Model_Json Spec_Json Spec_JsonFile
  Prop_JsonFile Model_Hash Spec_Hash Prop_Hash Model_TxBuilder Model_Slp Model_Serde Spec_Serde Proofs_Script Proofs_Code Proofs_Wire Proofs_Codec Proofs_Reser Proofs_Preimage.
Local Open Scope string_scope.
Local Open Scope list_scope.
Local Open Scope Z_scope.

Definition compl {A} (r : jreader A) (V : A -> Prop) (D : json -> A -> Prop) (S : A -> A -> Prop) : Prop :=
  forall j a, V a -> D j a -> exists a', r j = Ok a' /\ S a a'.
Definition snds {A} (r : jreader A) (V : A -> Prop) (D : json -> A -> Prop) : Prop := forall j a, doc_fits j -> r j = Ok a -> V a /\ D j a.
Definition calm {A} (r : jreader A) : Prop := forall j, r j = Panic -> odd_sized_hash j.
Definition wrs {A} (w : A -> outcome json) (V : A -> Prop) (D : json -> A -> Prop) : Prop := forall a, V a -> exists j, w a = Ok j /\ D j a.
Definition nn {A} (D : json -> A -> Prop) : Prop := forall a, ~ D JNull a.

(* ---------- texts ---------- *)
Lemma text_of_bytes l : bytes_ok l -> text_bytes (bytes_text l) = l.
Proof.
  intros H. unfold text_bytes, bytes_text. rewrite list_ascii_of_string_of_list_ascii, map_map.
  induction H as [|b l Hb _ IH]; [reflexivity|]. cbn [map]. f_equal; [|exact IH].
  rewrite Ascii.nat_ascii_embedding by (unfold byte_ok in Hb; lia). unfold byte_ok in Hb. lia.
Qed.
Lemma text_bytes_ok s : bytes_ok (text_bytes s).
Proof.
  unfold text_bytes. apply Forall_map. apply Forall_forall. intros a _. unfold byte_ok. pose proof (Ascii.nat_ascii_bounded a). lia.
Qed.
Lemma hex_text_len s d : hex_text s d -> zlen s = 2 * zlen d.
Proof. induction 1; rewrite ?zlen_cons; [reflexivity|]. lia. Qed.
Lemma hex_text_ascii d : bytes_ok d -> hex_text (text_bytes (bytes_text (hex_encode d))) d.
Proof.
  intros H. rewrite text_of_bytes; [now apply hex_encode_text|].
  pose proof (hex_encode_lower d H) as L. eapply Forall_impl; [|exact L]. intros c [Hc|Hc]; unfold byte_ok; lia.
Qed.

(* ---------- generic readers ---------- *)
Lemma agrees_compl {A} (f : json -> option A) D (V : A -> Prop) : agrees f D -> compl (r_of f) V D eq.
Proof. intros H j a _ Hd. apply H in Hd. unfold r_of. rewrite Hd. eauto. Qed.
Lemma agrees_snds {A} (f : json -> option A) D (V : A -> Prop) : agrees f D -> (forall j a, D j a -> V a) -> snds (r_of f) V D.
Proof. intros H HV j a _ E. unfold r_of in E. destruct (f j) as [b|] eqn:F; [|discriminate]. injection E as <-. apply H in F. eauto. Qed.
Lemma of_calm {A} (f : json -> option A) : calm (r_of f).
Proof. intros j E. unfold r_of in E. destruct (f j); discriminate. Qed.
Lemma checks_calm {A} (r : jreader A) : calm r -> calm (checks r).
Proof. intros H j E. unfold checks in E. destruct (r j) eqn:F; try discriminate. now apply H. Qed.
Lemma odd_in_arr l v : In v l -> odd_sized_hash v -> odd_sized_hash (JArr l).
Proof. intros H (s & d & I & X). exists s, d. split; [|exact X]. eapply InsideArr; eauto. Qed.
Lemma odd_in_obj l k v : In (k, v) l -> odd_sized_hash v -> odd_sized_hash (JObj l).
Proof. intros H (s & d & I & X). exists s, d. split; [|exact X]. eapply InsideObj; eauto. Qed.
Lemma fits_arr l v : doc_fits (JArr l) -> In v l -> doc_fits v.
Proof. intros H I s J. apply H. eapply InsideArr; eauto. Qed.
Lemma fits_obj l k v : doc_fits (JObj l) -> In (k, v) l -> doc_fits v.
Proof. intros H I s J. apply H. eapply InsideObj; eauto. Qed.

Lemma vec_compl {A} (r : jreader A) V D S : compl r V D S -> compl (r_vec r) (Forall V) (f_list D) (Forall2 S).
Proof.
  intros H j a HV (l & -> & HF). cbn [r_vec]. revert HV. induction HF as [|w x l xs Hd _ IH]; intros HV; [exists []; auto|].
  inversion HV; subst. destruct (H w x) as (x' & E & Sx); auto. destruct IH as (xs' & E' & Sxs); auto.
  exists (x' :: xs'). split; [now apply omap_app_cons|]. now constructor.
Qed.
Lemma vec_snds {A} (r : jreader A) V D : snds r V D -> snds (r_vec r) (Forall V) (f_list D).
Proof.
  intros H j a Hf E. unfold r_vec in E. destruct j as [| | | |l|]; try discriminate.
  assert (Forall V a /\ Forall2 D l a) as [HV HD]; [|split; [exact HV|exists l; auto]].
  assert (forall v, In v l -> doc_fits v) as Hl by (intros v; now apply fits_arr). clear Hf. revert a E. induction l as [|w l IH]; intros a E.
  - injection E as <-. split; constructor.
  - cbn in E. apply obind_ok in E. destruct E as (x & Ex & E). apply obind_ok in E. destruct E as (xs & Exs & E). injection E as <-.
    destruct (H w x) as [Vx Dx]; [apply Hl; now left|exact Ex|]. destruct (IH (fun v Hv => Hl v (or_intror Hv)) xs Exs) as [Vxs Dxs]. split; constructor; auto.
Qed.
Lemma vec_calm {A} (r : jreader A) : calm r -> calm (r_vec r).
Proof.
  intros H j E. unfold r_vec in E. destruct j as [| | | |l|]; try discriminate.
  assert (exists v, In v l /\ r v = Panic) as (v & I & P); [|eapply odd_in_arr; eauto].
  induction l as [|w l IH]; [discriminate|]. cbn in E. destruct (r w) eqn:F; cbn [obind] in E; try discriminate; [|exists w; split; [now left|exact F]].
  destruct (omap r l) eqn:G; cbn [obind] in E; try discriminate. destruct (IH eq_refl) as (v & I & P). exists v. split; [now right|exact P].
Qed.
Lemma vec_nn {A} (D : json -> A -> Prop) : nn (f_list D). Proof. intros a (l & E & _). discriminate. Qed.
Lemma vec_wrs {A} (w : A -> outcome json) V D : wrs w V D -> wrs (w_vec w) (Forall V) (f_list D).
Proof.
  intros H a HV. unfold w_vec. assert (exists js, omap w a = Ok js /\ Forall2 D js a) as (js & -> & HF); [|cbn [obind]; eexists; split; [reflexivity|]; exists js; auto].
  induction HV as [|x l Hx _ (js & E & HF)]; [exists []; split; [reflexivity|constructor]|]. destruct (H x Hx) as (j & Ej & Dj). exists (j :: js). split; [now apply omap_app_cons|]. now constructor.
Qed.
Lemma opt_wrs {A} (w : A -> outcome json) V D : nn D -> wrs w V D -> wrs (w_opt w) (opt_all V) (nullable D).
Proof.
  intros Hn H [a|] HV; cbn [w_opt]; [|exists JNull; split; reflexivity]. destruct (H a HV) as (j & E & Dj). exists j. split; [exact E|]. split; [|exact Dj]. intros ->. exact (Hn a Dj).
Qed.

(* ---------- structs ---------- *)
Definition fieldok (l : list (string * json)) (p : string * jreader unit) : Prop :=
  keys_named (fst p) l = [] \/ exists v, keys_named (fst p) l = [v] /\ snd p v = Ok tt.

Lemma find_in k fields f : find_field k fields = Some f -> In (k, f) fields.
Proof.
  induction fields as [|[k' g] r IH]; cbn [find_field]; [discriminate|]. destruct (String.eqb_spec k' k) as [->|]; [intros [= ->]; now left|intros H; right; auto].
Qed.
Lemma visit_map_ok fields l : Forall (fieldok l) fields -> forall l1 seen, (forall k, In k seen -> find_field k fields <> None -> keys_named k l1 = []) ->
  (forall k f v, find_field k fields = Some f -> In v (keys_named k l1) -> f v = Ok tt) -> (forall k f, find_field k fields = Some f -> (length (keys_named k l1) <= 1)%nat) ->
  visit_map fields seen l1 = Ok tt.
Proof.
  intros _. induction l1 as [|[k v] r IH]; intros seen Hs Hc H1; [reflexivity|]. cbn [visit_map]. destruct (find_field k fields) as [f|] eqn:F.
  - destruct (existsb (String.eqb k) seen) eqn:X.
    + exfalso. apply existsb_exists in X. destruct X as (k' & I & E). apply String.eqb_eq in E. subst k'.
      specialize (Hs k I). cbn [keys_named] in Hs. rewrite String.eqb_refl in Hs. rewrite F in Hs. specialize (Hs ltac:(discriminate)). discriminate.
    + rewrite (Hc k f v F) by (cbn [keys_named]; rewrite String.eqb_refl; now left). cbn [obind].
      assert (keys_named k r = []) as Kr.
      { specialize (H1 k f F). cbn [keys_named] in H1. rewrite String.eqb_refl in H1. cbn [length] in H1. destruct (keys_named k r); [reflexivity|cbn in H1; lia]. }
      apply IH.
      * intros k' [<-|I] N; [exact Kr|]. specialize (Hs k' I N). cbn [keys_named] in Hs. destruct (String.eqb k k'); [discriminate|exact Hs].
      * intros k' f' v' F' I. apply (Hc k' f' v' F'). cbn [keys_named]. destruct (String.eqb k k'); [now right|exact I].
      * intros k' f' F'. specialize (H1 k' f' F'). cbn [keys_named] in H1. destruct (String.eqb k k'); cbn [length] in H1; lia.
  - assert (forall k' f', find_field k' fields = Some f' -> keys_named k' ((k, v) :: r) = keys_named k' r) as Heq.
    { intros k' f' F'. cbn [keys_named]. destruct (String.eqb_spec k k') as [->|]; [congruence|reflexivity]. }
    apply IH.
    + intros k' I N. destruct (find_field k' fields) as [f'|] eqn:F'; [|congruence]. rewrite <- (Heq k' f' F'). apply Hs; [exact I|]. congruence.
    + intros k' f' v' F' I. apply (Hc k' f' v' F'). now rewrite (Heq k' f' F').
    + intros k' f' F'. rewrite <- (Heq k' f' F'). eauto.
Qed.
Lemma keys_combine_absent k names (vs : list json) : ~ In k names -> keys_named k (combine names vs) = [].
Proof.
  revert vs. induction names as [|n names IH]; intros [|v vs] H; try reflexivity. cbn [combine keys_named].
  destruct (String.eqb_spec n k) as [->|]; [exfalso; apply H; now left|]. apply IH. intros I. apply H. now right.
Qed.
Lemma visit_seq_ok fields : NoDup (map fst fields) -> forall vs, length vs = length (map fst fields) -> Forall (fieldok (combine (map fst fields) vs)) fields -> visit_seq fields vs = Ok tt.
Proof.
  induction fields as [|[k f] fs IH]; intros ND [|v vs] L HF; try discriminate; [reflexivity|]. cbn [visit_seq]. cbn [map fst] in *.
  inversion ND as [|? ? Hk ND']; subst. inversion HF as [|? ? H1 H2]; subst. unfold fieldok in H1. cbn [combine fst snd keys_named] in H1. rewrite String.eqb_refl in H1.
  rewrite keys_combine_absent in H1 by exact Hk. destruct H1 as [H1|(w & [= <-] & H1)]; [discriminate|]. rewrite H1. cbn [obind]. apply IH; [exact ND'|cbn in L; lia|].
  rewrite Forall_forall in H2 |- *. intros [k' f'] I. specialize (H2 _ I). unfold fieldok in *. cbn [combine fst snd keys_named] in *.
  destruct (String.eqb_spec k k') as [<-|]; [|exact H2]. exfalso. apply Hk. apply in_map_iff. exists (k, f'). auto.
Qed.
Lemma struct_ok fields j l : NoDup (map fst fields) -> members (map fst fields) j l -> Forall (fieldok l) fields -> r_struct fields j = Ok l.
Proof.
  intros ND [->|(vs & -> & L & ->)] HF; cbn [r_struct].
  - rewrite (visit_map_ok fields l HF l []); [reflexivity|intros k []| |].
    + intros k f v F I. apply find_in in F. rewrite Forall_forall in HF. destruct (HF _ F) as [E|(w & E & C)]; cbn [fst snd] in *; rewrite E in I; [destruct I|]. destruct I as [<-|[]]. exact C.
    + intros k f F. apply find_in in F. rewrite Forall_forall in HF. destruct (HF _ F) as [E|(w & E & C)]; cbn [fst] in E; rewrite E; cbn; lia.
  - rewrite visit_seq_ok; auto.
Qed.
Lemma visit_seq_len fields : forall vs, visit_seq fields vs = Ok tt -> length vs = length (map fst fields).
Proof.
  induction fields as [|[k f] fs IH]; intros [|v vs] E; try discriminate; [reflexivity|]. cbn [visit_seq] in E. apply obind_ok in E. destruct E as (u & _ & E). cbn. f_equal. auto.
Qed.
Lemma struct_inv fields j l : r_struct fields j = Ok l -> members (map fst fields) j l.
Proof.
  destruct j as [| | | |vs|l0]; cbn [r_struct]; try discriminate.
  - intros E. apply obind_ok in E. destruct E as ([] & E1 & E). injection E as <-. right. exists vs. split; [reflexivity|]. split; [now apply visit_seq_len|reflexivity].
  - intros E. apply obind_ok in E. destruct E as ([] & _ & E). injection E as <-. now left.
Qed.
Lemma combine_in {A B} (a : list A) (b : list B) x y : In (x, y) (combine a b) -> In y b.
Proof. apply in_combine_r. Qed.
Lemma members_fits names j l k v : members names j l -> doc_fits j -> In (k, v) l -> doc_fits v.
Proof. intros [->|(vs & -> & _ & ->)] H I; [eapply fits_obj; eauto|]. apply combine_in in I. eapply fits_arr; eauto. Qed.
Lemma members_odd names j l k v : members names j l -> In (k, v) l -> odd_sized_hash v -> odd_sized_hash j.
Proof. intros [->|(vs & -> & _ & ->)] I H; [eapply odd_in_obj; eauto|]. apply combine_in in I. eapply odd_in_arr; eauto. Qed.
Lemma keys_in k l v : In v (keys_named k l) -> In (k, v) l.
Proof.
  induction l as [|[k' w] r IH]; cbn [keys_named]; [auto|]. destruct (String.eqb_spec k' k) as [->|]; [intros [->|I]; [now left|right; auto]|intros I; right; auto].
Qed.
Lemma visit_map_panic fields : Forall (fun p => calm (snd p)) fields -> forall l seen, visit_map fields seen l = Panic -> exists k v, In (k, v) l /\ odd_sized_hash v.
Proof.
  intros HF. induction l as [|[k v] r IH]; intros seen E; [discriminate|]. cbn [visit_map] in E. destruct (find_field k fields) as [f|] eqn:F.
  - destruct (existsb (String.eqb k) seen); [discriminate|]. destruct (f v) eqn:G; cbn [obind] in E; try discriminate.
    + destruct (IH _ E) as (k' & v' & I & O). exists k', v'. split; [now right|exact O].
    + exists k, v. split; [now left|]. apply find_in in F. rewrite Forall_forall in HF. exact (HF _ F _ G).
  - destruct (IH _ E) as (k' & v' & I & O). exists k', v'. split; [now right|exact O].
Qed.
Lemma visit_seq_panic fields : Forall (fun p => calm (snd p)) fields -> forall l, visit_seq fields l = Panic -> exists v, In v l /\ odd_sized_hash v.
Proof.
  induction 1 as [|[k f] fs Hf _ IH]; intros [|v vs] E; try discriminate. cbn [visit_seq] in E. destruct (f v) eqn:G; cbn [obind] in E; try discriminate.
  - destruct (IH _ E) as (w & I & O). exists w. split; [now right|exact O].
  - exists v. split; [now left|]. exact (Hf _ G).
Qed.
Lemma struct_panic fields j : Forall (fun p => calm (snd p)) fields -> r_struct fields j = Panic -> odd_sized_hash j.
Proof.
  intros HF E. destruct j as [| | | |vs|l0]; cbn [r_struct] in E; try discriminate.
  - destruct (visit_seq fields vs) eqn:G; cbn [obind] in E; try discriminate. destruct (visit_seq_panic fields HF _ G) as (v & I & O). eapply odd_in_arr; eauto.
  - destruct (visit_map fields [] l0) eqn:G; cbn [obind] in E; try discriminate. destruct (visit_map_panic fields HF _ _ G) as (k & v & I & O). eapply odd_in_obj; eauto.
Qed.

(* ---------- fields ---------- *)
Lemma field_compl {A} (r : jreader A) V D S k l a : compl r V D S -> V a -> field k D l a -> exists a', S a a' /\ r_field k r l = Ok a' /\ fieldok l (k, checks r).
Proof.
  intros H Va (w & O & Dw). apply keys_once in O. destruct (H w a Va Dw) as (a' & E & Sa). exists a'. split; [exact Sa|]. unfold r_field. rewrite O. split; [exact E|].
  right. exists w. cbn [fst snd]. split; [exact O|]. unfold checks. now rewrite E.
Qed.
Lemma r_opt_some {A} (r : jreader A) w : w <> JNull -> r_opt r w = (do a <- r w; Ok (Some a)).
Proof. destruct w; try reflexivity. congruence. Qed.
Lemma opt_field_compl {A} (r : jreader A) V D S k l a : compl r V D S -> opt_all V a -> opt_field k D l a ->
  exists a', same_option S a a' /\ r_opt_field k r l = Ok a' /\ fieldok l (k, checks (r_opt r)).
Proof.
  intros H Va [(w & O & Dw)|[O ->]].
  - apply keys_once in O. unfold r_opt_field. rewrite O. destruct a as [a|]; cbn [nullable] in Dw.
    + destruct Dw as [N Dw]. destruct (H w a Va Dw) as (a' & E & Sa). exists (Some a'). split; [exact Sa|]. rewrite r_opt_some, E by exact N. split; [reflexivity|].
      right. exists w. cbn [fst snd]. split; [exact O|]. unfold checks. rewrite r_opt_some, E by exact N. reflexivity.
    + subst w. exists None. split; [exact I|]. split; [reflexivity|]. right. exists JNull. cbn [fst snd]. split; [exact O|reflexivity].
  - apply keys_absent in O. exists None. split; [exact I|]. unfold r_opt_field. rewrite O. split; [reflexivity|]. now left.
Qed.
Lemma field_snds {A} (r : jreader A) V D k names j l a : snds r V D -> members names j l -> doc_fits j -> r_field k r l = Ok a -> V a /\ field k D l a.
Proof.
  intros H M F E. unfold r_field in E. destruct (keys_named k l) as [|w [|? ?]] eqn:K; try discriminate.
  assert (doc_fits w) as Fw by (eapply members_fits; [exact M|exact F|apply (keys_in k); rewrite K; now left]).
  destruct (H w a Fw E) as [Va Dw]. split; [exact Va|]. exists w. split; [now apply keys_once|exact Dw].
Qed.
Lemma opt_field_snds {A} (r : jreader A) V D k names j l a : snds r V D -> members names j l -> doc_fits j -> r_opt_field k r l = Ok a -> opt_all V a /\ opt_field k D l a.
Proof.
  intros H M F E. unfold r_opt_field in E. destruct (keys_named k l) as [|w [|? ?]] eqn:K; try discriminate.
  - injection E as <-. split; [exact I|]. right. split; [now apply keys_absent|reflexivity].
  - assert (doc_fits w) as Fw by (eapply members_fits; [exact M|exact F|apply (keys_in k); rewrite K; now left]).
    assert (once k l w) as O by now apply keys_once. destruct w as [| | | | |] eqn:W; [injection E as <-; split; [exact I|]; left; exists JNull; split; [exact O|reflexivity]|..];
    (rewrite <- W in *; rewrite r_opt_some in E by (subst w; discriminate); apply obind_ok in E; destruct E as (x & Ex & E); injection E as <-;
     destruct (H w x Fw Ex) as [Vx Dx]; split; [exact Vx|]; left; exists w; split; [exact O|]; split; [subst w; discriminate|exact Dx]).
Qed.
Lemma field_calm {A} (r : jreader A) k names j l : calm r -> members names j l -> r_field k r l = Panic -> odd_sized_hash j.
Proof.
  intros H M E. unfold r_field in E. destruct (keys_named k l) as [|w [|? ?]] eqn:K; try discriminate.
  eapply members_odd; [exact M|apply (keys_in k); rewrite K; now left|]. now apply H.
Qed.
Lemma opt_calm {A} (r : jreader A) : calm r -> calm (r_opt r).
Proof. intros H j E. destruct j; cbn [r_opt] in E; try discriminate; (match type of E with context [r ?x] => destruct (r x) eqn:F end; try discriminate; now apply H). Qed.
Lemma opt_field_calm {A} (r : jreader A) k names j l : calm r -> members names j l -> r_opt_field k r l = Panic -> odd_sized_hash j.
Proof.
  intros H M E. unfold r_opt_field in E. destruct (keys_named k l) as [|w [|? ?]] eqn:K; try discriminate.
  eapply members_odd; [exact M|apply (keys_in k); rewrite K; now left|]. now apply (opt_calm r H).
Qed.
(* writing: the fields of the object that is written *)
Lemma field_here {A} k (D : json -> A -> Prop) l w a : keys_named k l = [w] -> D w a -> field k D l a.
Proof. intros K H. exists w. split; [now apply keys_once|exact H]. Qed.
Lemma opt_here {A} k (D : json -> A -> Prop) l w a : keys_named k l = [w] -> nullable D w a -> opt_field k D l a.
Proof. intros K H. left. exists w. split; [now apply keys_once|exact H]. Qed.
Lemma j_opt_nullable {A} (f : A -> json) (D : json -> A -> Prop) o : (forall a, f a <> JNull) -> opt_all (fun a => D (f a) a) o -> nullable D (j_opt f o) o.
Proof. intros N H. destruct o as [a|]; [|reflexivity]. split; [apply N|exact H]. Qed.
Lemma same_option_eq {A} (a b : option A) : same_option eq a b -> a = b.
Proof. destruct a, b; cbn; congruence || tauto. Qed.
Lemma Forall2_eq {A} (a b : list A) : Forall2 eq a b -> a = b.
Proof. induction 1; congruence. Qed.
