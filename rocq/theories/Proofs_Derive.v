From Verif Require Import Base BaseLemmas Model_Encoding Model_ByteArray Proofs_ByteArray Model_Opcode Model_Script
  Model_Code Spec_Code Proofs_Code Model_Derive Spec_Derive.
Local Open Scope string_scope.
Local Open Scope list_scope.
Local Open Scope Z_scope.

Lemma last_cons {A} (x : A) l d : last (x :: l) d = last l x.
Proof. revert x d. induction l as [|y l IH]; intros x d; [reflexivity|]. change (last (x :: y :: l) d) with (last (y :: l) d). rewrite !IH. reflexivity. Qed.
Lemma last_app2 {A} (l m : list A) d : last (l ++ m) d = last m (last l d).
Proof. revert d. induction l as [|x l IH]; intros d; [reflexivity|]. cbn [app]. rewrite !last_cons. apply IH. Qed.
Lemma field_skipped_true attrs b : field_skipped attrs true = Ok b -> b = true /\ forall a, In a attrs -> exists p, a = FList p ["skip"].
Proof.
  revert b. induction attrs as [|a l IH]; intros b H; cbn in H.
  - injection H as <-. split; [reflexivity|]. intros a [].
  - destruct a as [|p|p|p ps]; try discriminate. destruct ps as [|q [|r ps]]; try discriminate.
    destruct (q =? "skip")%string eqn:E; [|discriminate]. apply String.eqb_eq in E. subst q.
    destruct (IH _ H) as [-> Ha]. split; [reflexivity|]. intros a [<-|Hin]; eauto.
Qed.
Lemma field_skipped_inv attrs b : field_skipped attrs false = Ok b ->
  (b = true <-> attrs <> []) /\ forall a, In a attrs -> exists p, a = FList p ["skip"].
Proof.
  intros H. destruct attrs as [|a l]; cbn in H.
  - injection H as <-. split; [split; [discriminate|congruence]|]. intros a [].
  - destruct a as [|p|p|p ps]; try discriminate. destruct ps as [|q [|r ps]]; try discriminate.
    destruct (q =? "skip")%string eqn:E; [|discriminate]. apply String.eqb_eq in E. subst q.
    destruct (field_skipped_true _ _ H) as [-> Ha]. split; [split; [discriminate|reflexivity]|].
    intros a [<-|Hin]; eauto.
Qed.
Lemma field_skipped_ok attrs b : (forall a, In a attrs -> exists p, a = FList p ["skip"]) ->
  field_skipped attrs b = Ok (match attrs with [] => b | _ => true end).
Proof.
  revert b. induction attrs as [|a l IH]; intros b H; [reflexivity|].
  destruct (H a (or_introl eq_refl)) as (p & ->). cbn. rewrite IH by (intros; apply H; right; assumption).
  destruct l; reflexivity.
Qed.

Section P.
Context {ty V : Type} (codec_of : ty -> codec V) (default_of : ty -> V).
Context (value : ty -> V -> Prop) (same : ty -> V -> V -> Prop).

(** What the generator emits, field by field. *)
Definition sks (f : field ty) : bool := match f_attrs f with [] => false | _ => true end.
Definition sers (fs : list (field ty)) : list ser_call :=
  flat_map (fun f => if sks f then [] else [SerPush (f_name f) (f_name f)]) fs.
Definition desers (fs : list (field ty)) : list (deser_call ty) :=
  map (fun f => if sks f then LetDefault (f_name f) else LetRead (f_name f) (f_ty f)) fs.
Definition attrs_ok (fs : list (field ty)) : Prop :=
  forall f a, In f fs -> In a (f_attrs f) -> exists p, a = FList p ["skip"].

Lemma gen_fields_iff fs r : gen_fields fs = Ok r <-> attrs_ok fs /\ r = (sers fs, desers fs, map f_name fs).
Proof.
  revert r. induction fs as [|f fs IH]; intros r; cbn [gen_fields].
  - split; [intros H; injection H as <-; split; [intros ? ? []|reflexivity]|]. intros [_ ->]. reflexivity.
  - split.
    + intros H. apply obind_ok in H. destruct H as (sk & E & H). apply obind_ok in H. destruct H as ([[se de] ids] & E2 & H).
      apply IH in E2. destruct E2 as [Ha E2]. injection E2 as -> -> ->. injection H as <-.
      apply field_skipped_inv in E. destruct E as [E1 E2]. split.
      * intros g a [<-|Hin] Hi; [auto|eauto].
      * cbn [sers desers flat_map map]. unfold sks at 1 3.
        destruct (f_attrs f) as [|a l].
        -- destruct sk; [|reflexivity]. destruct E1 as [E1 _]. specialize (E1 eq_refl). congruence.
        -- destruct E1 as [_ E1]. rewrite E1 by discriminate. reflexivity.
    + intros [Ha ->]. rewrite field_skipped_ok by (intros; eapply Ha; [left; reflexivity|assumption]). cbn [obind].
      assert (gen_fields fs = Ok (sers fs, desers fs, map f_name fs)) as -> by (apply IH; split; [|reflexivity]; intros g a Hg; apply Ha; right; exact Hg).
      cbn [obind sers desers flat_map map]. unfold sks. destruct (f_attrs f); reflexivity.
Qed.

Lemma generate_named is_ident attrs fs g : generate is_ident (ItemStruct attrs (Named fs)) = Ok g ->
  attrs_ok fs /\ g_ser g = sers fs /\ g_deser g = desers fs /\ g_idents g = map f_name fs.
Proof.
  unfold generate. cbn [is_attrs is_fields]. intros H. apply obind_ok in H. destruct H as (c & _ & H).
  apply obind_ok in H. destruct H as ([[se de] ids] & E & H). apply gen_fields_iff in E. destruct E as [Ha E].
  injection E as -> -> ->. injection H as <-. cbn. auto.
Qed.

Lemma sks_wire f : sks f = false <-> on_wire f.
Proof. unfold sks, on_wire. destruct (f_attrs f); split; congruence. Qed.

(* the field-by-field codec *)
Fixpoint ser_fields (fs : list (field ty)) (v : list (string * V)) : outcome (list barray) :=
  match fs, v with
  | f :: fs, (n, x) :: v =>
    if sks f then ser_fields fs v
    else do s <- c_ser (codec_of (f_ty f)) x; do ps <- ser_fields fs v; Ok (ba_named s (f_name f) :: ps)
  | _, _ => Ok []
  end.
Fixpoint read_fields (fs : list (field ty)) (data : barray) : outcome (list (string * V) * barray) :=
  match fs with
  | [] => Ok ([], data)
  | f :: fs =>
    if sks f then do (l, d) <- read_fields fs data; Ok ((f_name f, default_of (f_ty f)) :: l, d)
    else do (x, d) <- c_deser_rest (codec_of (f_ty f)) data;
         do (l, d) <- read_fields fs d; Ok ((f_name f, x) :: l, d)
  end.

Lemma lookup_mid {X} (pre : list (string * X)) n x post : ~ In n (map fst pre) -> lookup (pre ++ (n, x) :: post) n = Some x.
Proof.
  induction pre as [|[m y] pre IH]; cbn; intros H; [rewrite String.eqb_refl; reflexivity|].
  destruct (m =? n)%string eqn:E; [apply String.eqb_eq in E; tauto|]. tauto.
Qed.
Lemma field_types_app a b : field_types (a ++ b) = field_types a ++ @field_types ty b.
Proof. apply map_app. Qed.
Lemma field_types_fst a : map fst (@field_types ty a) = names a.
Proof. unfold field_types, names. rewrite map_map. reflexivity. Qed.
Lemma field_type_mid (pre : list (field ty)) f post : NoDup (names (pre ++ f :: post)) -> lookup (field_types (pre ++ f :: post)) (f_name f) = Some (f_ty f).
Proof.
  intros H. rewrite field_types_app. cbn. apply lookup_mid. rewrite field_types_fst.
  unfold names in H. rewrite map_app in H. cbn in H. apply NoDup_remove_2 in H. rewrite in_app_iff in H. tauto.
Qed.

Lemma exec_ser_fields (pre fs : list (field ty)) vpre v : NoDup (names (pre ++ fs)) -> map fst vpre = names pre -> map fst v = names fs ->
  exec_ser codec_of (pre ++ fs) (sers fs) (vpre ++ v) = ser_fields fs v.
Proof.
  revert pre vpre v. induction fs as [|f fs IH]; intros pre vpre v Hn Hp Hv.
  - destruct v; [reflexivity|discriminate].
  - destruct v as [|[n x] v]; [discriminate|]. cbn in Hv. injection Hv as Hn1 Hv. subst n.
    cbn [sers flat_map ser_fields].
    replace (pre ++ f :: fs) with ((pre ++ [f]) ++ fs) by (rewrite <- app_assoc; reflexivity).
    replace (vpre ++ (f_name f, x) :: v) with ((vpre ++ [(f_name f, x)]) ++ v) by (rewrite <- app_assoc; reflexivity).
    assert (exec_ser codec_of ((pre ++ [f]) ++ fs) (sers fs) ((vpre ++ [(f_name f, x)]) ++ v) = ser_fields fs v) as E.
    { apply IH; [rewrite <- app_assoc; exact Hn| |exact Hv]. unfold names in *. rewrite !map_app, Hp. reflexivity. }
    destruct (sks f); cbn [app]; [exact E|]. fold (sers fs). cbn [exec_ser].
    rewrite <- !app_assoc. cbn [app].
    rewrite lookup_mid.
    2:{ rewrite Hp. unfold names in *. rewrite map_app in Hn. cbn in Hn. apply NoDup_remove_2 in Hn. rewrite in_app_iff in Hn. tauto. }
    rewrite field_type_mid by exact Hn.
    replace (vpre ++ (f_name f, x) :: v) with ((vpre ++ [(f_name f, x)]) ++ v) by (rewrite <- app_assoc; reflexivity).
    replace (pre ++ f :: fs) with ((pre ++ [f]) ++ fs) by (rewrite <- app_assoc; reflexivity).
    rewrite E. reflexivity.
Qed.

Lemma exec_deser_fields (pre fs : list (field ty)) data env : NoDup (names (pre ++ fs)) ->
  exec_deser codec_of default_of (pre ++ fs) (desers fs) data env =
  do (l, d) <- read_fields fs data; Ok (rev l ++ env, d).
Proof.
  revert pre data env. induction fs as [|f fs IH]; intros pre data env Hn; [reflexivity|].
  cbn [desers map read_fields]. destruct (sks f) eqn:Es; cbn [exec_deser].
  - rewrite field_type_mid by exact Hn.
    replace (pre ++ f :: fs) with ((pre ++ [f]) ++ fs) in Hn |- * by (rewrite <- app_assoc; reflexivity).
    fold (desers fs). rewrite IH by exact Hn. destruct (read_fields fs data) as [[l d]| |]; cbn; try reflexivity.
    rewrite <- app_assoc. reflexivity.
  - destruct (c_deser_rest (codec_of (f_ty f)) data) as [[x d]| |]; cbn [obind]; try reflexivity.
    replace (pre ++ f :: fs) with ((pre ++ [f]) ++ fs) in Hn |- * by (rewrite <- app_assoc; reflexivity).
    fold (desers fs). rewrite IH by exact Hn. destruct (read_fields fs d) as [[l d']| |]; cbn; try reflexivity.
    rewrite <- app_assoc. reflexivity.
Qed.
Lemma read_fields_names fs data l d : read_fields fs data = Ok (l, d) -> map fst l = names fs.
Proof.
  revert data l d. induction fs as [|f fs IH]; intros data l d H; cbn in H.
  - injection H as <- <-. reflexivity.
  - destruct (sks f).
    + apply obind_ok in H. destruct H as ([l' d'] & E & H). injection H as <- <-. cbn. erewrite IH by exact E. reflexivity.
    + apply obind_ok in H. destruct H as ([x d1] & E1 & H). apply obind_ok in H. destruct H as ([l' d'] & E & H).
      injection H as <- <-. cbn. erewrite IH by exact E. reflexivity.
Qed.
Lemma struct_literal_env (a b : list (string * V)) : NoDup (map fst (a ++ b)) ->
  struct_literal (map fst b) (rev (a ++ b)) = Ok b.
Proof.
  revert a. induction b as [|[n x] b IH]; intros a Hn; [reflexivity|].
  cbn [map fst struct_literal].
  assert (lookup (rev (a ++ (n, x) :: b)) n = Some x) as ->.
  { rewrite rev_app_distr. cbn [rev]. rewrite <- app_assoc. cbn [app]. apply lookup_mid.
    rewrite map_app in Hn. cbn in Hn. apply NoDup_remove_2 in Hn. rewrite in_app_iff in Hn.
    rewrite map_rev, <- in_rev. tauto. }
  replace (a ++ (n, x) :: b) with ((a ++ [(n, x)]) ++ b) in Hn |- * by (rewrite <- app_assoc; reflexivity).
  rewrite IH by exact Hn. reflexivity.
Qed.

Lemma derived_read is_ident attrs fs g data : generate is_ident (ItemStruct attrs (Named fs)) = Ok g -> compiles fs ->
  c_deser_rest (derived codec_of default_of fs g) data = read_fields fs data.
Proof.
  intros H [Hn _]. apply generate_named in H. destruct H as (_ & _ & Hd & Hi). cbn [derived c_deser_rest].
  rewrite Hd, Hi. pose proof (exec_deser_fields [] fs data [] Hn) as E. cbn [app] in E. rewrite E.
  destruct (read_fields fs data) as [[l d]| |] eqn:Er; cbn [obind]; try reflexivity.
  rewrite app_nil_r. pose proof (read_fields_names _ _ _ _ Er) as Hl. fold (names fs). rewrite <- Hl.
  pose proof (struct_literal_env [] l) as S. cbn [app] in S. rewrite S by (rewrite Hl; exact Hn). reflexivity.
Qed.
Lemma derived_ser is_ident attrs fs g v : generate is_ident (ItemStruct attrs (Named fs)) = Ok g -> compiles fs -> map fst v = names fs ->
  c_ser (derived codec_of default_of fs g) v = do parts <- ser_fields fs v; Ok (ba_from_parts parts).
Proof.
  intros H [Hn _] Hv. apply generate_named in H. destruct H as (_ & Hs & _). cbn [derived c_ser].
  rewrite Hs. pose proof (exec_ser_fields [] fs [] v Hn eq_refl Hv) as E. cbn [app] in E. rewrite E. reflexivity.
Qed.
Lemma struct_value_names fs v : struct_value value fs v -> map fst v = names fs.
Proof. induction 1 as [|f [n x] fs v [E _] _ IH]; cbn; [reflexivity|]. cbn in E. subst n. rewrite IH. reflexivity. Qed.

Definition fields_lawful (fs : list (field ty)) : Prop := forall f, In f fs -> on_wire f ->
  roundtrips (codec_of (f_ty f)) (value (f_ty f)) (same (f_ty f)) /\ self_delimiting (codec_of (f_ty f)) (same (f_ty f)).

Lemma fields_round fs : fields_lawful fs -> forall v, struct_value value fs v ->
  exists ps, ser_fields fs v = Ok ps /\ bytes_ok (concat (map ba_data ps)) /\
    forall t rest, ba_data t = concat (map ba_data ps) ++ rest -> bytes_ok rest ->
      exists v' t', read_fields fs t = Ok (v', t') /\ read_back default_of same fs v v' /\ ba_data t' = rest.
Proof.
  induction fs as [|f fs IH]; intros HL v Hv; inversion Hv as [|? [n x] ? v' [Hn Hx] Hv' ]; subst.
  - exists []. split; [reflexivity|]. split; [constructor|]. intros t rest Ht _. exists [], t. split; [reflexivity|]. split; [constructor|exact Ht].
  - cbn in Hn, Hx. subst n. destruct (IH (fun g Hg => HL g (or_intror Hg)) v' Hv') as (ps & Es & Ok_ & Hr).
    cbn [ser_fields read_fields]. destruct (sks f) eqn:E.
    + exists ps. split; [exact Es|]. split; [exact Ok_|]. intros t rest Ht Hrest.
      destruct (Hr t rest Ht Hrest) as (w & t' & E1 & S1 & D1). exists ((f_name f, default_of (f_ty f)) :: w), t'.
      rewrite E1. cbn. split; [reflexivity|]. split; [|exact D1]. apply rb_skip; [rewrite <- sks_wire; congruence|reflexivity|exact S1].
    + apply sks_wire in E. destruct (HL f (or_introl eq_refl) E) as [R _]. destruct (R x (Hx E)) as (s & Ex & Ox & Px).
      rewrite Ex. cbn [obind]. rewrite Es. cbn [obind]. exists (ba_named s (f_name f) :: ps). split; [reflexivity|].
      cbn [map concat]. rewrite named_data. split; [apply bytes_ok_app; auto|]. intros t rest Ht Hrest.
      rewrite <- app_assoc in Ht. destruct (Px t (concat (map ba_data ps) ++ rest) Ht) as (y & t1 & E1 & S1 & D1); [apply bytes_ok_app; auto|].
      destruct (Hr t1 rest D1 Hrest) as (w & t' & E2 & S2 & D2). exists ((f_name f, y) :: w), t'.
      rewrite E1. cbn [obind]. rewrite E2. cbn [obind]. split; [reflexivity|]. split; [|exact D2]. apply rb_wire; auto.
Qed.
Lemma fields_delim fs : fields_lawful fs -> forall t v t', bytes_ok (ba_data t) -> read_fields fs t = Ok (v, t') ->
  exists p, ba_data t = p ++ ba_data t' /\
    forall u s, ba_data u = p ++ s -> bytes_ok s ->
      exists v' u', read_fields fs u = Ok (v', u') /\ read_back default_of same fs v v' /\ ba_data u' = s.
Proof.
  induction fs as [|f fs IH]; intros HL t v t' Hok H; cbn [read_fields] in H.
  - injection H as <- <-. exists []. split; [reflexivity|]. intros u s Hu _. exists [], u. split; [reflexivity|]. split; [constructor|exact Hu].
  - specialize (IH (fun g Hg => HL g (or_intror Hg))). cbn [read_fields]. destruct (sks f) eqn:E.
    + apply obind_ok in H. destruct H as ([l d] & E1 & H). injection H as <- <-.
      destruct (IH t l d Hok E1) as (p & Hp & P). exists p. split; [exact Hp|]. intros u s Hu Hs.
      destruct (P u s Hu Hs) as (w & u' & F & S & D). exists ((f_name f, default_of (f_ty f)) :: w), u'. rewrite F. cbn.
      split; [reflexivity|]. split; [|exact D]. apply rb_skip; [rewrite <- sks_wire; congruence|reflexivity|exact S].
    + apply obind_ok in H. destruct H as ([x d] & E1 & H). apply obind_ok in H. destruct H as ([l d'] & E2 & H). injection H as <- <-.
      apply sks_wire in E. destruct (HL f (or_introl eq_refl) E) as [_ Dl]. destruct (Dl t x d Hok E1) as (p & Hp & P).
      assert (bytes_ok (ba_data d)) as Hok1 by (rewrite Hp in Hok; apply bytes_ok_app in Hok; tauto).
      destruct (IH d l d' Hok1 E2) as (q & Hq & Q). exists (p ++ q). split; [rewrite Hp, Hq; apply app_assoc|].
      intros u s Hu Hs. rewrite <- app_assoc in Hu. rewrite Hq in Hok1. apply bytes_ok_app in Hok1.
      destruct (P u (q ++ s) Hu) as (y & u1 & F1 & S1 & D1); [apply bytes_ok_app; tauto|].
      destruct (Q u1 s D1 Hs) as (w & u' & F2 & S2 & D2). exists ((f_name f, y) :: w), u'.
      rewrite F1. cbn [obind]. rewrite F2. cbn [obind]. split; [reflexivity|]. split; [|exact D2]. apply rb_wire; auto.
Qed.

Lemma derived_laws is_ident attrs fs g : generate is_ident (ItemStruct attrs (Named fs)) = Ok g -> compiles fs -> fields_lawful fs ->
  roundtrips (derived codec_of default_of fs g) (struct_value value fs) (read_back default_of same fs) /\
  self_delimiting (derived codec_of default_of fs g) (read_back default_of same fs).
Proof.
  intros Hg Hc HL. split.
  - intros v Hv. destruct (fields_round fs HL v Hv) as (ps & Es & Ob & Hr).
    exists (ba_from_parts ps). rewrite (derived_ser _ _ _ _ _ Hg Hc (struct_value_names _ _ Hv)), Es. cbn [obind].
    split; [reflexivity|]. rewrite from_parts_data. split; [exact Ob|]. intros t rest Ht Hrest.
    rewrite (derived_read _ _ _ _ _ Hg Hc). auto.
  - intros t v t' Hok H. rewrite (derived_read _ _ _ _ _ Hg Hc) in H. destruct (fields_delim fs HL t v t' Hok H) as (p & Hp & P).
    exists p. split; [exact Hp|]. intros u s Hu Hs. rewrite (derived_read _ _ _ _ _ Hg Hc). auto.
Qed.

Lemma ser_fields_parts fs v ps : map fst v = names fs -> ser_fields fs v = Ok ps ->
  exists qs, wire_parts codec_of fs v qs /\ ps = map (fun q => ba_named (snd q) (fst q)) qs.
Proof.
  revert v ps. induction fs as [|f fs IH]; intros v ps Hv H; destruct v as [|[n x] v]; try discriminate.
  - injection H as <-. exists []. split; [constructor|reflexivity].
  - cbn in Hv. injection Hv as -> Hv. cbn [ser_fields] in H. destruct (sks f) eqn:E.
    + destruct (IH _ _ Hv H) as (qs & W & ->). exists qs. split; [|reflexivity]. apply wp_skip; [rewrite <- sks_wire; congruence|reflexivity|exact W].
    + apply obind_ok in H. destruct H as (s & E1 & H). apply obind_ok in H. destruct H as (ps' & E2 & H). injection H as <-.
      destruct (IH _ _ Hv E2) as (qs & W & ->). exists ((f_name f, s) :: qs). split; [|reflexivity].
      apply wp_wire; auto. apply sks_wire; exact E.
Qed.
Lemma derived_layout is_ident attrs fs g v s : generate is_ident (ItemStruct attrs (Named fs)) = Ok g -> compiles fs -> map fst v = names fs ->
  c_ser (derived codec_of default_of fs g) v = Ok s ->
  exists qs, wire_parts codec_of fs v qs /\ s = ba_from_parts (map (fun q => ba_named (snd q) (fst q)) qs) /\
    ba_data s = concat (map (fun q => ba_data (snd q)) qs).
Proof.
  intros Hg Hc Hv H. rewrite (derived_ser _ _ _ _ _ Hg Hc Hv) in H. apply obind_ok in H. destruct H as (ps & E & H).
  injection H as <-. destruct (ser_fields_parts _ _ _ Hv E) as (qs & W & ->). exists qs. split; [exact W|]. split; [reflexivity|].
  rewrite from_parts_data, map_map. f_equal. apply map_ext. intros [n q]. apply named_data.
Qed.
Lemma ser_fields_agree fs a b : agree_on_wire fs a b -> map fst a = names fs /\ map fst b = names fs /\ ser_fields fs a = ser_fields fs b.
Proof.
  induction 1 as [|f fs x a b _ (IH1 & IH2 & IH3)|f fs x y a b Hw _ (IH1 & IH2 & IH3)]; cbn; [auto| |].
  - rewrite IH1, IH2, IH3. auto.
  - rewrite IH1, IH2, IH3. assert (sks f = true) as ->; [|auto]. destruct (sks f) eqn:E; [reflexivity|]. apply sks_wire in E. contradiction.
Qed.
Lemma derived_ignores is_ident attrs fs g a b : generate is_ident (ItemStruct attrs (Named fs)) = Ok g -> compiles fs -> agree_on_wire fs a b ->
  c_ser (derived codec_of default_of fs g) a = c_ser (derived codec_of default_of fs g) b.
Proof.
  intros Hg Hc H. apply ser_fields_agree in H. destruct H as (Ha & Hb & E).
  rewrite (derived_ser _ _ _ _ _ Hg Hc Ha), (derived_ser _ _ _ _ _ Hg Hc Hb), E. reflexivity.
Qed.
End P.

Lemma struct_params_iff is_ident items c r : struct_params is_ident items c = Ok r <->
  Forall (fun i => exists s, i = NNameValue ["crate"] (LStr s) /\ is_ident s = true) items /\
  r = last (flat_map (fun i => match i with NNameValue _ (LStr s) => [s] | _ => [] end) items) c.
Proof.
  revert c r. induction items as [|i items IH]; intros c r; cbn [struct_params].
  - cbn. split; [intros H; injection H as <-; auto|intros [_ ->]; reflexivity].
  - split.
    + intros H. destruct i as [segs v| |]; try discriminate. destruct segs as [|n [|? ?]]; try discriminate. cbn in H.
      destruct (n =? "crate")%string eqn:E; [|discriminate]. apply String.eqb_eq in E. subst n. destruct v as [s|]; [|discriminate].
      destruct (is_ident s) eqn:Ei; [|discriminate]. apply IH in H. destruct H as [H ->]. split; [constructor; eauto|].
      cbn [flat_map app]. symmetry. apply last_cons.
    + intros [H ->]. inversion H as [|? ? (s & -> & Hi) H']; subst. cbn. rewrite Hi.
      assert (struct_params is_ident items s = Ok (last (flat_map (fun i => match i with NNameValue _ (LStr s) => [s] | _ => [] end) items) s)) as -> by (apply IH; auto).
      f_equal. symmetry. apply last_cons.
Qed.
Lemma struct_attrs_iff is_ident attrs c r : struct_attrs is_ident attrs c = Ok r <->
  Forall (struct_attr_ok is_ident) attrs /\ r = last (crate_names attrs) c.
Proof.
  revert c r. induction attrs as [|a attrs IH]; intros c r; cbn [struct_attrs].
  - cbn. split; [intros H; injection H as <-; auto|intros [_ ->]; reflexivity].
  - destruct a as [|p items|].
    + split; [discriminate|]. intros [H _]. inversion H; subst. contradiction.
    + cbn [crate_names flat_map]. destruct (p =? "bitcoin_code")%string eqn:E.
      * apply String.eqb_eq in E. subst p. split.
        -- intros H. apply obind_ok in H. destruct H as (c1 & E1 & H). apply struct_params_iff in E1. destruct E1 as [F ->].
           apply IH in H. destruct H as [G ->]. split; [constructor; [intros _; exact F|exact G]|]. rewrite last_app2. reflexivity.
        -- intros [H ->]. inversion H as [|? ? F G]; subst.
           assert (struct_params is_ident items c = Ok (last (flat_map (fun i => match i with NNameValue _ (LStr s) => [s] | _ => [] end) items) c)) as ->
             by (apply struct_params_iff; split; [exact (F eq_refl)|reflexivity]).
           cbn [obind]. apply IH. split; [exact G|]. apply last_app2.
      * cbn [app]. rewrite IH. split; intros [H ->]; (split; [|reflexivity]); [constructor; [|exact H]|inversion H; assumption].
        cbn. intros ->. discriminate.
    + cbn [crate_names flat_map app]. rewrite IH. split; intros [H ->]; (split; [|reflexivity]); [constructor; [exact I|exact H]|inversion H; assumption].
Qed.
(* ---------- instances ---------- *)
Ltac binds := repeat (cbn [lift c_ser c_deser_rest obind]; match goal with
  | |- context [obind (c_deser_rest ?c ?d) _] => destruct (c_deser_rest c d) as [[? ?]| |]
  | |- context [obind (c_ser ?c ?d) _] => destruct (c_ser c d)
  end); cbn [obind]; try reflexivity.
Section Inst.
Variables (si so : Z).
Definition D fs g := derived (r_codec si so) r_default fs g.
Variables (is_ident : string -> bool) (Hi : is_ident "crate" = true).
Ltac gen Hg := unfold generate, outpoint_decl, input_decl, output_decl, unhashed_decl, tx_decl, preimage_decl in Hg;
  cbn in Hg; rewrite Hi in Hg; cbn in Hg; injection Hg as <-.
Ltac go := split; [cbn [D derived c_ser g_ser exec_ser lookup String.eqb Ascii.eqb Bool.eqb field_types map f_name f_ty wire skip
    outpoint_fields input_fields output_fields unhashed_fields tx_fields preimage_fields r_codec op_tx_hash op_vout in_prev_out in_script in_sequence
    out_value out_script tx_version tx_inputs tx_outputs tx_lock_time tx_raw pi_version pi_hash_prevouts pi_hash_sequence pi_outpoint pi_script_code
    pi_value pi_sequence pi_hash_outputs pi_lock_time pi_sig_hash_type]; binds
  | cbn [D derived c_deser_rest g_deser g_idents exec_deser lookup String.eqb Ascii.eqb Bool.eqb field_types map f_name f_ty wire skip
    outpoint_fields input_fields output_fields unhashed_fields tx_fields preimage_fields r_codec r_default]; binds ].

Lemma outpoint_inst g : generate is_ident outpoint_decl = Ok g -> forall o data,
  c_ser (D outpoint_fields g) (outpoint_struct o) = c_ser outpoint_codec o /\
  c_deser_rest (D outpoint_fields g) data = do (o, d) <- c_deser_rest outpoint_codec data; Ok (outpoint_struct o, d).
Proof. intros Hg o data. gen Hg. unfold outpoint_struct. unfold outpoint_codec. go. Qed.

Lemma input_inst g : generate is_ident input_decl = Ok g -> forall i data,
  c_ser (D input_fields g) (input_struct i) = c_ser input_codec i /\
  c_deser_rest (D input_fields g) data = do (i, d) <- c_deser_rest input_codec data; Ok (input_struct i, d).
Proof. intros Hg i data. gen Hg. unfold input_struct. unfold input_codec. go. Qed.
Lemma output_inst g : generate is_ident output_decl = Ok g -> forall o data,
  c_ser (D output_fields g) (output_struct o) = c_ser output_codec o /\
  c_deser_rest (D output_fields g) data = do (o, d) <- c_deser_rest output_codec data; Ok (output_struct o, d).
Proof. intros Hg o data. gen Hg. unfold output_struct. unfold output_codec. go. Qed.
Lemma unhashed_inst g : generate is_ident unhashed_decl = Ok g -> forall t data,
  c_ser (D unhashed_fields g) (unhashed_struct t) = c_ser (unhashed_tx_codec si so) t /\
  c_deser_rest (D unhashed_fields g) data = do (t, d) <- c_deser_rest (unhashed_tx_codec si so) data; Ok (unhashed_struct t, d).
Proof. intros Hg t data. gen Hg. unfold unhashed_struct. unfold unhashed_tx_codec. go. Qed.
Lemma tx_inst g : generate is_ident tx_decl = Ok g -> forall t data,
  c_ser (D tx_fields g) (tx_struct t) = c_ser tx_codec t /\
  c_deser_rest (D tx_fields g) data = do (t, d) <- c_deser_rest tx_codec data; Ok (tx_struct t, d).
Proof. intros Hg t data. gen Hg. unfold tx_struct. unfold tx_codec. go. Qed.
Lemma preimage_inst g : generate is_ident preimage_decl = Ok g -> forall p data,
  c_ser (D preimage_fields g) (preimage_struct p) = c_ser preimage_codec p /\
  c_deser_rest (D preimage_fields g) data = do (p, d) <- c_deser_rest preimage_codec data; Ok (preimage_struct p, d).
Proof. intros Hg p data. gen Hg. unfold preimage_struct. unfold preimage_codec. go. Qed.
End Inst.
