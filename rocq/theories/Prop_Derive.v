(** Property C44: [#[derive(BitcoinCode)]] for an arbitrary struct. *)
From Verif Require Import Base BaseLemmas Model_Encoding Model_ByteArray Proofs_ByteArray Model_Opcode Model_Script
  Model_Code Spec_Code Proofs_Code Model_Derive Spec_Derive Proofs_Derive.
Local Open Scope string_scope.
Local Open Scope list_scope.
Local Open Scope Z_scope.

(** C44: exactly the structs with named fields whose field attributes are all of the form [#[p(skip)]], and whose
    [#[bitcoin_code(..)]] attributes only say [crate = "ident"], are accepted. *)
Theorem C44_accepted_iff : forall (ty : Type) is_ident (item : item_struct ty),
  (exists g, generate is_ident item = Ok g) <->
  (exists fs, is_fields item = Named fs /\ Forall (struct_attr_ok is_ident) (is_attrs item) /\
    forall f a, In f fs -> In a (f_attrs f) -> exists p, a = FList p ["skip"]).
Proof.
  intros ty is_ident [attrs [fs| |]]; unfold generate; cbn [is_attrs is_fields]; split.
  - intros (g & H). apply obind_ok in H. destruct H as (c & E & H). apply obind_ok in H. destruct H as (r & E2 & _).
    apply struct_attrs_iff in E. apply gen_fields_iff in E2. exists fs. split; [reflexivity|]. split; [tauto|]. exact (proj1 E2).
  - intros (fs' & E & Ha & Hf). injection E as <-.
    rewrite (proj2 (struct_attrs_iff _ _ _ _) (conj Ha eq_refl)). cbn [obind].
    rewrite (proj2 (gen_fields_iff _ _) (conj Hf eq_refl)). cbn. eauto.
  - intros (g & H). apply obind_ok in H. destruct H as (c & _ & H). discriminate.
  - intros (fs & H & _). discriminate.
  - intros (g & H). apply obind_ok in H. destruct H as (c & _ & H). discriminate.
  - intros (fs & H & _). discriminate.
Qed.
Print Assumptions C44_accepted_iff.

(** C44: everything else is refused with an error; the derive panics only if the crate named is no identifier. *)
Theorem C44_panics_only_on_crate_name : forall (ty : Type) is_ident (item : item_struct ty), generate is_ident item = Panic ->
  exists items s, In (SList "bitcoin_code" items) (is_attrs item) /\ In (NNameValue ["crate"] (LStr s)) items /\ is_ident s = false.
Proof.
  intros ty is_ident [attrs fs] H. unfold generate in H. cbn [is_attrs is_fields] in *.
  assert (P1 : forall items c, struct_params is_ident items c = Panic -> exists s, In (NNameValue ["crate"] (LStr s)) items /\ is_ident s = false).
  { induction items as [|[segs v| |] items IH]; intros c E; cbn [struct_params] in E; try discriminate. destruct segs as [|n [|m segs]]; cbn [single_path] in E; try discriminate.
    destruct (String.eqb_spec n "crate") as [->|]; [|discriminate]. destruct v as [s|]; [|discriminate]. destruct (is_ident s) eqn:Ei; [|exists s; split; [left; reflexivity|exact Ei]].
    destruct (IH _ E) as (s' & Hin & Hs). exists s'. split; [right; exact Hin|exact Hs]. }
  assert (P2 : forall c, struct_attrs is_ident attrs c = Panic -> exists items s, In (SList "bitcoin_code" items) attrs /\ In (NNameValue ["crate"] (LStr s)) items /\ is_ident s = false).
  { clear H. induction attrs as [|a attrs IH]; intros c E; cbn [struct_attrs] in E; [discriminate|].
    assert (forall c', struct_attrs is_ident attrs c' = Panic -> exists items s, In (SList "bitcoin_code" items) (a :: attrs) /\ In (NNameValue ["crate"] (LStr s)) items /\ is_ident s = false) as K.
    { intros c' E'. destruct (IH _ E') as (it & s & H1 & H2). exists it, s. split; [right; exact H1|exact H2]. }
    destruct a as [|p items|]; [discriminate| |].
    - destruct (String.eqb_spec p "bitcoin_code") as [->|]; [|exact (K _ E)]. destruct (struct_params is_ident items c) as [c'|e|] eqn:Ep; cbn [obind] in E; [exact (K _ E)|discriminate|].
      destruct (P1 _ _ Ep) as (s & H1 & H2). exists items, s. split; [left; reflexivity|auto].
    - exact (K _ E). }
  assert (P3 : forall a b, field_skipped a b <> Panic).
  { induction a as [|[|p|p|p [|x [|y l]]] a IH]; intros b; cbn [field_skipped]; try discriminate. destruct (String.eqb x "skip"); [apply IH|discriminate]. }
  assert (P4 : forall l : list (field ty), gen_fields l <> Panic).
  { induction l as [|f l IH]; cbn [gen_fields]; [discriminate|]. destruct (field_skipped (f_attrs f) false) eqn:E; cbn [obind]; [|discriminate|exfalso; exact (P3 _ _ E)].
    destruct (gen_fields l) as [[[ser de] ids]| |]; cbn [obind]; [discriminate|discriminate|contradiction]. }
  destruct (struct_attrs is_ident attrs "bitcoin_cash") eqn:Es; cbn [obind] in H; [|discriminate|exact (P2 _ Es)]. destruct fs as [l| |]; [|discriminate|discriminate].
  destruct (gen_fields l) as [[[ser de] ids]| |] eqn:Eg; cbn [obind] in H; [discriminate|discriminate|exfalso; exact (P4 _ Eg)].
Qed.
Print Assumptions C44_panics_only_on_crate_name.

(** C44: the paths in the generated code start with the crate last named by [#[bitcoin_code(crate = "..")]],
    [bitcoin_cash] if there is none. *)
Theorem C44_crate_name : forall (ty : Type) is_ident (item : item_struct ty) g, generate is_ident item = Ok g ->
  g_crate g = last (crate_names (is_attrs item)) "bitcoin_cash".
Proof.
  intros ty is_ident [attrs [fs| |]] g H; unfold generate in H; cbn [is_attrs is_fields] in *; apply obind_ok in H;
    destruct H as (c & E & H); try discriminate. apply struct_attrs_iff in E. destruct E as [_ ->].
  apply obind_ok in H. destruct H as ([sd ids] & _ & H). injection H as <-. reflexivity.
Qed.
Print Assumptions C44_crate_name.

(** C44: if only [bitcoin_code] attributes are used, a field is off the wire exactly when it is marked
    [#[bitcoin_code(skip)]]. *)
Theorem C44_skip_mark : forall (ty : Type) is_ident attrs (fs : list (field ty)) g,
  generate is_ident (ItemStruct attrs (Named fs)) = Ok g ->
  (forall f p ps, In f fs -> In (FList p ps) (f_attrs f) -> p = "bitcoin_code") ->
  forall f, In f fs -> (~ on_wire f <-> marked_skip f).
Proof.
  intros ty is_ident attrs fs g H Hp f Hf. apply generate_named in H. destruct H as (Ha & _). unfold on_wire, marked_skip. split.
  - intros Hw. destruct (f_attrs f) as [|a l] eqn:E; [congruence|]. left.
    destruct (Ha f a Hf) as (p & ->); [rewrite E; left; reflexivity|].
    rewrite (Hp f p ["skip"] Hf); [reflexivity|rewrite E; left; reflexivity].
  - intros Hin E. rewrite E in Hin. destruct Hin.
Qed.
Print Assumptions C44_skip_mark.

(** C44: the encoding is the concatenation, in declaration order, of the encodings of the fields on the wire, each
    labelled with the field's name ([wire_parts]); nothing else is written. *)
Theorem C44_layout : forall (ty V : Type) (codec_of : ty -> codec V) default_of is_ident attrs fs g v s,
  generate is_ident (ItemStruct attrs (Named fs)) = Ok g -> compiles fs -> map fst v = names fs ->
  c_ser (derived codec_of default_of fs g) v = Ok s ->
  exists parts, wire_parts codec_of fs v parts /\
    s = ba_from_parts (map (fun q => ba_named (snd q) (fst q)) parts) /\
    ba_data s = concat (map (fun q => ba_data (snd q)) parts).
Proof. exact (fun ty V codec_of default_of is_ident attrs fs g v s => derived_layout codec_of default_of is_ident attrs fs g v s). Qed.
Print Assumptions C44_layout.

(** C44: if every field type on the wire round-trips and is self-delimiting, so is the struct: reading back what was
    written, whatever follows it, gives equal wire fields and default values for the skipped ones, and leaves what
    follows. *)
Theorem C44_lawful : forall (ty V : Type) (codec_of : ty -> codec V) default_of value same is_ident attrs fs g,
  generate is_ident (ItemStruct attrs (Named fs)) = Ok g -> compiles fs ->
  (forall f, In f fs -> on_wire f ->
    roundtrips (codec_of (f_ty f)) (value (f_ty f)) (same (f_ty f)) /\ self_delimiting (codec_of (f_ty f)) (same (f_ty f))) ->
  roundtrips (derived codec_of default_of fs g) (struct_value value fs) (read_back default_of same fs) /\
  self_delimiting (derived codec_of default_of fs g) (read_back default_of same fs).
Proof. exact (fun ty V codec_of default_of value same is_ident attrs fs g => derived_laws codec_of default_of value same is_ident attrs fs g). Qed.
Print Assumptions C44_lawful.

(** C44: skipped fields have no influence on what is written. *)
Theorem C44_skipped_not_written : forall (ty V : Type) (codec_of : ty -> codec V) default_of is_ident attrs fs g a b,
  generate is_ident (ItemStruct attrs (Named fs)) = Ok g -> compiles fs -> agree_on_wire fs a b ->
  c_ser (derived codec_of default_of fs g) a = c_ser (derived codec_of default_of fs g) b.
Proof. exact (fun ty V codec_of default_of is_ident attrs fs g a b => derived_ignores codec_of default_of is_ident attrs fs g a b). Qed.
Print Assumptions C44_skipped_not_written.

(** C44: the codecs of the crate's own structs (used in C15-C18, C42) are what the macro generates for their
    declarations in tx.rs and tx_preimage.rs. *)
Theorem C44_crate_structs : forall si so is_ident, is_ident "crate" = true ->
  let derives A (c : codec A) (as_struct : A -> list (string * rval)) decl fs :=
    exists g, generate is_ident decl = Ok g /\ g_crate g = "crate" /\ is_fields decl = Named fs /\ compiles fs /\
    (forall a, c_ser (derived (r_codec si so) r_default fs g) (as_struct a) = c_ser c a) /\
    (forall data, c_deser_rest (derived (r_codec si so) r_default fs g) data =
       do (a, d) <- c_deser_rest c data; Ok (as_struct a, d)) in
  derives _ outpoint_codec outpoint_struct outpoint_decl outpoint_fields /\
  derives _ input_codec input_struct input_decl input_fields /\
  derives _ output_codec output_struct output_decl output_fields /\
  derives _ (unhashed_tx_codec si so) unhashed_struct unhashed_decl unhashed_fields /\
  derives _ tx_codec tx_struct tx_decl tx_fields /\
  derives _ preimage_codec preimage_struct preimage_decl preimage_fields.
Proof.
  intros si so is_ident Hi derives.
  assert (forall fs, (forallb (fun n => negb (n =? "data")%string) (@names rty fs) &&
    forallb (fun i => forallb (fun j => (i =? j)%nat || negb (nth i (names fs) "" =? nth j (names fs) "")%string) (seq 0 (length fs))) (seq 0 (length fs)) = true) -> compiles fs) as Hc.
  { intros fs H. apply andb_true_iff in H. destruct H as [H1 H2]. rewrite forallb_forall in H1, H2. split.
    - apply (NoDup_nth _ ""). unfold names at 1 2. rewrite map_length. intros i j Li Lj E.
      specialize (H2 i ltac:(apply in_seq; lia)). rewrite forallb_forall in H2. specialize (H2 j ltac:(apply in_seq; lia)).
      rewrite E, String.eqb_refl in H2. cbn in H2. rewrite orb_false_r in H2. apply Nat.eqb_eq in H2. exact H2.
    - intros Hin. specialize (H1 _ Hin). discriminate. }
  assert (forall {A} (c : codec A) st decl fs, (exists g, generate is_ident decl = Ok g /\ g_crate g = "crate") -> is_fields decl = Named fs -> compiles fs ->
    (forall g, generate is_ident decl = Ok g -> forall a data, c_ser (D si so fs g) (st a) = c_ser c a /\
       c_deser_rest (D si so fs g) data = do (a, d) <- c_deser_rest c data; Ok (st a, d)) -> (exists a : A, True) -> derives A c st decl fs) as K.
  { intros A c st decl fs (g & Hg & Hn) Hf Hco H (a0 & _). exists g. repeat (split; [assumption|]). split; intros x; [apply (H g Hg x (ba_unnamed []))|apply (H g Hg a0 x)]. }
  pose (z := ba_unnamed []). pose (o0 := TxOutpoint z 0). pose (t0 := unhashed_tx_default).
  repeat apply conj; (apply K; [unfold generate; cbn; rewrite Hi; cbn; eexists; split; reflexivity|reflexivity|apply Hc; reflexivity| |]).
  - exact (outpoint_inst si so is_ident Hi).
  - exists o0. exact I.
  - exact (input_inst si so is_ident Hi).
  - exists (tx_input_new o0 [] 0). exact I.
  - exact (output_inst si so is_ident Hi).
  - exists (TxOutput 0 []). exact I.
  - exact (unhashed_inst si so is_ident Hi).
  - exists t0. exact I.
  - exact (tx_inst si so is_ident Hi).
  - exists (Tx t0 z z). exact I.
  - exact (preimage_inst si so is_ident Hi).
  - exists (TxPreimage 0 z z o0 [] 0 0 z 0 0). exact I.
Qed.
Print Assumptions C44_crate_structs.

(** C44, exception: the attribute's path is not looked at, so another derive's [skip], e.g. [#[serde(skip)]], also
    takes the field off the wire: two structs differing in that field have the same bytes, and the field is lost. *)
Definition serde_skip_fields : list (field rty) := [Field "a" [] Ru32; Field "b" [FList "serde" ["skip"]] Ru32].
Theorem C44_foreign_skip_refuted : exists g, generate (fun _ => true) (ItemStruct [] (Named serde_skip_fields)) = Ok g /\
  compiles serde_skip_fields /\ (forall f, In f serde_skip_fields -> ~ marked_skip f) /\
  exists s, c_ser (derived (r_codec 0 0) r_default serde_skip_fields g) [("a", VInt 7); ("b", VInt 1)] = Ok s /\
    c_ser (derived (r_codec 0 0) r_default serde_skip_fields g) [("a", VInt 7); ("b", VInt 2)] = Ok s /\
    c_deser (derived (r_codec 0 0) r_default serde_skip_fields g) s = Ok [("a", VInt 7); ("b", VInt 0)].
Proof.
  eexists. split; [vm_compute; reflexivity|]. split.
  { split; [repeat constructor; cbn; intuition discriminate|cbn; intuition discriminate]. }
  split. { intros f [<-|[<-|[]]]; cbn; intuition discriminate. }
  eexists. split; [vm_compute; reflexivity|]. split; vm_compute; reflexivity.
Qed.
Print Assumptions C44_foreign_skip_refuted.

(** A doc comment on a field (a [name = value] attribute) is a compile error. *)
Example C44_doc_comment : generate (fun _ => true) (ItemStruct [] (Named [Field "a" [FNameValue "doc"] Ru32])) = Err (EMsg 7).
Proof. reflexivity. Qed.

(** The hypotheses of the theorems are met: a struct with a skipped field in the middle. *)
Definition ex_fields : list (field rty) := [Field "a" [] Ru32; Field "b" [FList "bitcoin_code" ["skip"]] ROptU64; Field "c" [] RByteArray].
Example C44_nonvacuous : exists g, generate (fun _ => true) (ItemStruct [SOther] (Named ex_fields)) = Ok g /\
  compiles ex_fields /\ g_crate g = "bitcoin_cash" /\
  exists s, c_ser (derived (r_codec 0 0) r_default ex_fields g) [("a", VInt 258); ("b", VOptInt (Some 5)); ("c", VBytes (ba_unnamed [9; 8]))] = Ok s /\
    ba_data s = [2; 1; 0; 0; 2; 9; 8] /\
    exists v t, c_deser_rest (derived (r_codec 0 0) r_default ex_fields g) (ba_unnamed [2; 1; 0; 0; 2; 9; 8; 77]) = Ok (v, t) /\
      map fst v = ["a"; "b"; "c"] /\ ba_data t = [77] /\ nth 1 v ("", VInt 0) = ("b", VOptInt None).
Proof.
  eexists. split; [vm_compute; reflexivity|]. split.
  { split; [repeat constructor; cbn; intuition discriminate|cbn; intuition discriminate]. }
  split; [reflexivity|]. eexists. split; [vm_compute; reflexivity|]. split; [vm_compute; reflexivity|].
  eexists. eexists. split; [vm_compute; reflexivity|]. repeat split.
Qed.
(** Field types of the crate satisfy the law hypothesis of [C44_lawful]. *)
Example C44_lawful_nonvacuous : forall f, In f ex_fields -> on_wire f ->
  let value t v := match t, v with Ru32, VInt n => u32_ok n | RByteArray, VBytes b => bytes_value b | _, _ => False end in
  let same (t : rty) v w := match v, w with VInt n, VInt m => n = m | VBytes b, VBytes c => same_bytes b c | _, _ => False end in
  roundtrips (r_codec 0 0 (f_ty f)) (value (f_ty f)) (same (f_ty f)) /\ self_delimiting (r_codec 0 0 (f_ty f)) (same (f_ty f)).
Proof.
  intros f [<-|[<-|[<-|[]]]] Hw value same; [|discriminate|].
  - cbn [f_ty]. destruct u32_laws as [R Dl]. split.
    + intros v Hn. destruct v as [n| | | | | | | | | |]; cbn in Hn; try contradiction. destruct (R n Hn) as (s & E & O & P). exists s.
      split; [exact E|]. split; [exact O|]. intros t rest Ht Hr. destruct (P t rest Ht Hr) as (a & t' & E' & S & Dt).
      exists (VInt a), t'. cbn [r_codec lift c_deser_rest]. rewrite E'. cbn. auto.
    + intros t a t' Hok H. cbn [r_codec lift c_deser_rest] in H. apply obind_ok in H. destruct H as ([n d] & E & H). injection H as <- <-.
      destruct (Dl t n d Hok E) as (p & Hp & P). exists p. split; [exact Hp|]. intros u s Hu Hs.
      destruct (P u s Hu Hs) as (a' & u' & F & S & Du). exists (VInt a'), u'. cbn [r_codec lift c_deser_rest]. rewrite F. cbn. auto.
  - cbn [f_ty]. destruct bytearray_laws as [R Dl]. split.
    + intros v Hn. destruct v as [|n| | | | | | | | |]; cbn in Hn; try contradiction. destruct (R n Hn) as (s & E & O & P). exists s.
      split; [exact E|]. split; [exact O|]. intros t rest Ht Hr. destruct (P t rest Ht Hr) as (a & t' & E' & S & Dt).
      exists (VBytes a), t'. cbn [r_codec lift c_deser_rest]. rewrite E'. cbn. auto.
    + intros t a t' Hok H. cbn [r_codec lift c_deser_rest] in H. apply obind_ok in H. destruct H as ([n d] & E & H). injection H as <- <-.
      destruct (Dl t n d Hok E) as (p & Hp & P). exists p. split; [exact Hp|]. intros u s Hu Hs.
      destruct (P u s Hu Hs) as (a' & u' & F & S & Du). exists (VBytes a'), u'. cbn [r_codec lift c_deser_rest]. rewrite F. cbn. auto.
Qed.
