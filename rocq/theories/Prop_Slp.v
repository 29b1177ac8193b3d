(** Property C35: SLP outputs. *)
From Coq Require Import String.
From Verif Require Import Base BaseLemmas Model_ByteArray Proofs_ByteArray Model_Opcode Model_Script Spec_Script Proofs_Script
  Model_Code Model_Destination Model_Hash Spec_Hash Prop_Hash Model_Slp Spec_Slp.
Local Open Scope string_scope.
Local Open Scope list_scope.
Local Open Scope Z_scope.

Lemma take_app d r : take (zlen d) (d ++ r) = Some (d, r).
Proof. unfold take. rewrite zlen_app. pose proof (zlen_nonneg r). destruct (Z.ltb_spec (zlen d + zlen r) (zlen d)); [lia|]. unfold zlen. rewrite Nat2Z.id, firstn_app_exact, skipn_app_exact by reflexivity. reflexivity. Qed.
Lemma slp_push_data d r : zlen d < 2 ^ 32 -> slp_push (nonmin_prefix d ++ d ++ r) = Some (d, r).
Proof.
  intros Hl. change (2 ^ 32) with 4294967296 in Hl. pose proof (zlen_nonneg d). unfold nonmin_prefix.
  destruct (Z.eqb_spec (zlen d) 0) as [E|]. { apply zlen_0 in E. subst d. cbn [app slp_push]. change ((1 <=? 76) && (76 <=? 75)) with false. change ((76 <=? 76) && (76 <=? 78)) with true. cbn match. change (length_bytes 76) with (zlen [0]). change (0 :: r) with ([0] ++ r). rewrite take_app. apply (take_app [] r). }
  destruct (Z.leb_spec (zlen d) 75). { cbn [app slp_push]. replace ((1 <=? zlen d) && (zlen d <=? 75)) with true by (symmetry; apply andb_true_intro; split; lia). apply take_app. }
  destruct (Z.leb_spec (zlen d) 255).
  { cbn [app slp_push]. change ((1 <=? 76) && (76 <=? 75)) with false. change ((76 <=? 76) && (76 <=? 78)) with true. cbn match. change (length_bytes 76) with (zlen [zlen d]). change (zlen d :: d ++ r) with ([zlen d] ++ d ++ r). rewrite take_app. rewrite le_value1. apply take_app. }
  destruct (Z.leb_spec (zlen d) 65535).
  - cbn [app slp_push]. change ((1 <=? 77) && (77 <=? 75)) with false. change ((76 <=? 77) && (77 <=? 78)) with true. cbn match. change (length_bytes 77) with (zlen (le_bytes 2 (zlen d))). rewrite take_app. rewrite le_value_bytes_small by (change (2 ^ (8 * Z.of_nat 2)) with 65536; lia). apply take_app.
  - cbn [app slp_push]. change ((1 <=? 78) && (78 <=? 75)) with false. change ((76 <=? 78) && (78 <=? 78)) with true. cbn match. change (length_bytes 78) with (zlen (le_bytes 4 (zlen d))). rewrite take_app. rewrite le_value_bytes_small by (change (2 ^ (8 * Z.of_nat 4)) with 4294967296; lia). apply take_app.
Qed.
Definition pushes_bytes (ds : list (list Z)) : list Z := concat (map (fun d => nonmin_prefix d ++ d) ds).
Lemma nonmin_cons d : exists x l, nonmin_prefix d = x :: l.
Proof. unfold nonmin_prefix. repeat match goal with |- context[if ?b then _ else _] => destruct b end; eauto. Qed.
Lemma slp_pushes_ok ds : Forall (fun d => zlen d < 2 ^ 32) ds -> forall fuel, (length (pushes_bytes ds) <= fuel)%nat -> slp_pushes fuel (pushes_bytes ds) = Some ds.
Proof.
  induction 1 as [|d ds Hd _ IH]; intros fuel Hf; [destruct fuel; reflexivity|]. unfold pushes_bytes in *. cbn [map concat] in *. set (rest := concat _) in *.
  pose proof (slp_push_data d rest Hd) as P. rewrite <- app_assoc. destruct (nonmin_cons d) as (x & l & E). rewrite E in *. cbn [app] in *. destruct fuel as [|k]; [cbn in Hf; lia|]. cbn [slp_pushes]. rewrite P. rewrite IH; [reflexivity|]. cbn in Hf. rewrite !app_length in Hf. lia.
Qed.

(** Serialising OP_RETURN and non-minimal pushes. *)
Definition push_op (p : string * list Z) : op := OPushArray (ba_new (fst p) (snd p)) false.
Lemma ser_return l : Forall (fun p => bytes_ok (snd p) /\ zlen (snd p) < 2 ^ 32) l ->
  exists a, serialize_ops (OCode OP_RETURN :: map push_op l) = Ok a /\ ba_data a = 0x6a :: pushes_bytes (map snd l).
Proof.
  intros H. assert (exists ps, omap serialize_op (map push_op l) = Ok ps /\ concat (map ba_data ps) = pushes_bytes (map snd l)) as (ps & E & D).
  { induction H as [|[nm d] l [Hb Hl] _ (ps & E & D)]; [exists []; split; reflexivity|]. cbn [snd] in *. destruct (ser_push (ba_new nm d) false Hb Hl) as (r & Er & Dr). exists (r :: ps).
    split; [cbn [map]; apply omap_app_cons; [exact Er|exact E]|]. cbn [map concat snd]. rewrite Dr, D. reflexivity. }
  unfold serialize_ops. rewrite (omap_app_cons _ _ _ (serialize_opcode OP_RETURN) ps); [|reflexivity|exact E]. cbn [obind]. eexists. split; [reflexivity|]. rewrite from_parts_data. cbn [map concat]. rewrite D. reflexivity.
Qed.
Lemma ret_fields (l : list (string * list Z)) : Forall (fun p => bytes_ok (snd p) /\ zlen (snd p) < 2 ^ 32) l -> slp_fields (0x6a :: pushes_bytes (map snd l)) = Some (map snd l).
Proof.
  intros H. unfold slp_fields. change (106 =? 106) with true. cbn match. apply slp_pushes_ok; [|lia]. induction H as [|p l [_ Hp] _ IH]; constructor; assumption.
Qed.
Lemma out_fields v (l : list (string * list Z)) : Forall (fun p => bytes_ok (snd p) /\ zlen (snd p) < 2 ^ 32) l ->
  exists a, script_ser_ops (out_script (TxOutput v (map tagged_from_op (OCode OP_RETURN :: map push_op l)))) = Ok a /\ slp_fields (ba_data a) = Some (map snd l) /\
    ba_data a = 0x6a :: pushes_bytes (map snd l).
Proof.
  intros H. destruct (ser_return l H) as (a & E & D). exists a. unfold script_ser_ops, out_script. rewrite map_map. rewrite (map_ext _ (fun o => o)) by reflexivity. rewrite map_id, E.
  split; [reflexivity|]. split; [|exact D]. rewrite D. now apply ret_fields.
Qed.
Definition genesis_list (p : genesis_params) : list (string * list Z) :=
  [("lokad_id", lokad_id); ("token_type", [token_type_u8 (g_token_type p)]); ("transaction_type", tx_type_text GENESIS); ("token_ticker", g_ticker p); ("token_name", g_name p);
   ("token_document_url", g_document_url p); ("token_document_hash", g_document_hash p); ("decimals", be_bytes 1 (g_decimals p));
   ("mint_baton_vout", match g_mint_baton_vout p with Some v => be_bytes 1 v | None => [] end); ("initial_token_mint_quantity", be_bytes 8 (g_initial_quantity p))].
Lemma genesis_is p : slp_genesis_output p = TxOutput 0 (map tagged_from_op (OCode OP_RETURN :: map push_op (genesis_list p))).
Proof. reflexivity. Qed.
Lemma be_bytes_ok n v : bytes_ok (be_bytes n v). Proof. unfold be_bytes. apply bytes_ok_rev, le_bytes_ok. Qed.
Lemma be_bytes_len n v : zlen (be_bytes n v) = Z.of_nat n. Proof. unfold be_bytes, zlen. rewrite rev_length. apply f_equal, le_bytes_length. Qed.
Lemma be_value_bytes n v : 0 <= v < 2 ^ (8 * Z.of_nat n) -> be_value (be_bytes n v) = v.
Proof. intros H. unfold be_value, be_bytes. rewrite rev_involutive. now apply le_value_bytes_small. Qed.
Lemma small_field d : bytes_ok d -> zlen d <= 32 -> bytes_ok d /\ zlen d < 2 ^ 32.
Proof. intros H L. split; [exact H|]. change (2 ^ 32) with 4294967296. lia. Qed.
Lemma genesis_list_ok p : params_ok p -> Forall (fun q => bytes_ok (snd q) /\ zlen (snd q) < 2 ^ 32) (genesis_list p).
Proof.
  intros (H1 & H2 & H3 & H4 & H5 & H6 & H7). unfold genesis_list.
  repeat (apply Forall_cons; [cbn [snd]|]); try apply Forall_nil; try assumption; apply small_field; rewrite ?be_bytes_len; try apply be_bytes_ok; try lia.
  - unfold lokad_id. repeat (constructor; [unfold byte_ok; lia|]). constructor.
  - unfold lokad_id, zlen. cbn. lia.
  - constructor; [|constructor]. unfold byte_ok, token_type_u8. destruct (g_token_type p); lia.
  - unfold zlen. cbn. lia.
  - cbn. repeat (constructor; [unfold byte_ok; lia|]). constructor.
  - unfold zlen. cbn. lia.
  - destruct (g_mint_baton_vout p); [apply be_bytes_ok|constructor].
  - destruct (g_mint_baton_vout p); [rewrite be_bytes_len; lia|unfold zlen; cbn; lia].
Qed.
Lemma be1 v : byte_ok v -> be_bytes 1 v = [v].
Proof. unfold byte_ok. intros H. unfold be_bytes. cbn [le_bytes rev app]. f_equal. apply Z.mod_small. lia. Qed.

(** The message of every GENESIS output is well formed: it is exactly ten data pushes after OP_RETURN, each in a
    push form SLP allows; the output carries no money. *)
Theorem C35_genesis_fields : forall p, params_ok p ->
  out_value (slp_genesis_output p) = 0 /\
  exists a, script_ser_ops (out_script (slp_genesis_output p)) = Ok a /\
    slp_fields (ba_data a) = Some [slp_lokad; [type_number (g_token_type p)]; txt_genesis; g_ticker p; g_name p; g_document_url p; g_document_hash p; [g_decimals p];
       match g_mint_baton_vout p with Some v => [v] | None => [] end; be_bytes 8 (g_initial_quantity p)].
Proof.
  intros p H. split; [reflexivity|]. rewrite genesis_is. destruct (out_fields 0 _ (genesis_list_ok p H)) as (a & E & F & _). exists a. split; [exact E|]. rewrite F. unfold genesis_list. cbn [map snd].
  destruct H as (_ & _ & _ & _ & H5 & H6 & _). rewrite be1 by exact H5. assert (match g_mint_baton_vout p with Some v => be_bytes 1 v | None => [] end = match g_mint_baton_vout p with Some v => [v] | None => [] end) as -> by (destruct (g_mint_baton_vout p) as [v|]; [now rewrite be1 by auto|reflexivity]).
  destruct (g_token_type p); reflexivity.
Qed.
Print Assumptions C35_genesis_fields.

Lemma fields_ok_iff p : params_ok p ->
  (genesis_fields_ok (be_value [type_number (g_token_type p)]) (g_document_hash p) [g_decimals p] (match g_mint_baton_vout p with Some v => [v] | None => [] end) (be_bytes 8 (g_initial_quantity p)) = true <-> within_limits p).
Proof.
  intros (_ & _ & _ & _ & H5 & H6 & H7). unfold genesis_fields_ok, within_limits. rewrite be_bytes_len, be_value_bytes by exact H7. change (zlen [g_decimals p]) with 1.
  assert (B : forall v, be_value [v] = v) by (intros v; unfold be_value; cbn; lia). rewrite !B. rewrite !andb_true_iff, !orb_true_iff, !Z.leb_le, !Z.eqb_eq.
  assert (HH : g_document_hash p = [] <-> zlen (g_document_hash p) = 0) by (split; [intros ->; reflexivity|apply zlen_0]). rewrite HH.
  assert (HB : (zlen (match g_mint_baton_vout p with Some v => [v] | None => [] end) = 0 \/ (zlen (match g_mint_baton_vout p with Some v => [v] | None => [] end) =? 1) && (2 <=? be_value (match g_mint_baton_vout p with Some v => [v] | None => [] end)) = true) <-> (forall v, g_mint_baton_vout p = Some v -> 2 <= v)).
  { destruct (g_mint_baton_vout p) as [v|].
    - rewrite B. unfold zlen. cbn. split; [intros [E|E]; [lia|]; intros w Ew; injection Ew as <-; lia|intros E; right; specialize (E v eq_refl); lia].
    - split; [intros _ v E; discriminate|intros _; left; reflexivity]. }
  rewrite HB. clear HB HH.
  assert (HT : (if type_number (g_token_type p) =? 65 then (g_decimals p =? 0) && (zlen (match g_mint_baton_vout p with Some v => [v] | None => [] end) =? 0) && (g_initial_quantity p =? 1) else true) = true <-> (g_token_type p = Nft1Child -> g_decimals p = 0 /\ g_mint_baton_vout p = None /\ g_initial_quantity p = 1)).
  { destruct (g_token_type p); cbn [type_number]; [split; [discriminate|reflexivity]| |split; [discriminate|reflexivity]]. change (65 =? 65) with true. cbn match. rewrite !andb_true_iff, !Z.eqb_eq. destruct (g_mint_baton_vout p) as [v|].
    - split; [intros [[_ E] _]; discriminate|]. intros E. destruct (E eq_refl) as (_ & X & _). discriminate.
    - split; [intros [[E1 _] E3] _; auto|]. intros E. destruct (E eq_refl) as (X1 & _ & X3). auto. }
  rewrite HT. intuition lia.
Qed.
Lemma same_refl l : same l l = true. Proof. induction l as [|x l IH]; [reflexivity|]. cbn. now rewrite Z.eqb_refl. Qed.
Lemma type_ok_number t : type_ok [type_number t] = true. Proof. destruct t; reflexivity. Qed.
Lemma type_value t : be_value [type_number t] = type_number t. Proof. destruct t; reflexivity. Qed.
Lemma genesis_parse p a : params_ok p -> script_ser_ops (out_script (slp_genesis_output p)) = Ok a ->
  (within_limits p -> slp_parse (ba_data a) = Some (MGenesis (genesis_of p))) /\ (~ within_limits p -> slp_parse (ba_data a) = None).
Proof.
  intros H E. destruct (C35_genesis_fields p H) as (_ & a' & E' & F). rewrite E in E'. injection E' as <-. pose proof (fields_ok_iff p H) as I.
  unfold slp_parse. rewrite F, !same_refl, type_ok_number. cbn [andb].
  match type of I with ?b = true <-> _ => destruct b eqn:B end; split; intros W.
  - rewrite type_value. unfold genesis_of. destruct H as (_ & _ & _ & _ & H5 & _ & H7). rewrite be_value_bytes by exact H7. do 3 f_equal. 
    + unfold be_value. cbn. lia.
    + destruct (g_mint_baton_vout p) as [v|]; [|reflexivity]. f_equal. unfold be_value. cbn. lia.
  - exfalso. apply W, I. reflexivity.
  - exfalso. apply I in W. congruence.
  - reflexivity.
Qed.
(** Within the limits of the SLP specifications the parser recovers every field; outside them the transaction
    is not a valid SLP transaction (the constructor does not check the limits). *)
Theorem C35_genesis : forall p, params_ok p ->
  exists a, script_ser_ops (out_script (slp_genesis_output p)) = Ok a /\
    (within_limits p -> slp_parse (ba_data a) = Some (MGenesis (genesis_of p))) /\
    (~ within_limits p -> slp_parse (ba_data a) = None).
Proof. intros p H. destruct (C35_genesis_fields p H) as (_ & a & E & _). exists a. split; [exact E|]. now apply genesis_parse. Qed.
Print Assumptions C35_genesis.

Lemma amounts_list idx amounts : exists names, length names = length amounts /\
  amount_ops_from idx amounts = map push_op (combine names (map (be_bytes 8) amounts)).
Proof.
  revert idx. induction amounts as [|x r IH]; intros idx; [exists []; split; reflexivity|]. destruct (IH (S idx)) as (ns & L & E). exists (quantity_name (idx + 1) :: ns). cbn [length map combine amount_ops_from]. rewrite E. split; [now rewrite L|reflexivity].
Qed.
Lemma combine_snd {A B} (a : list A) (b : list B) : length a = length b -> map snd (combine a b) = b.
Proof. revert b. induction a as [|x a IH]; intros [|y b] H; try discriminate; [reflexivity|]. cbn. f_equal. apply IH. now injection H. Qed.
Lemma send_is t id amounts : exists l, slp_send_output t id amounts = TxOutput 0 (map tagged_from_op (OCode OP_RETURN :: map push_op l)) /\
  map snd l = [lokad_id; [token_type_u8 t]; tx_type_text SEND; token_id_to_vec id] ++ map (be_bytes 8) amounts.
Proof.
  destruct (amounts_list 0 amounts) as (ns & L & E). exists ([("lokad_id", lokad_id); ("token_type", [token_type_u8 t]); ("transaction_type", tx_type_text SEND); ("token_id", token_id_to_vec id)] ++ combine ns (map (be_bytes 8) amounts)).
  split.
  - unfold slp_send_output, slp_amount_ops. rewrite E, (map_app push_op). reflexivity.
  - rewrite map_app, combine_snd; [reflexivity|]. now rewrite map_length.
Qed.
Theorem C35_send_fields : forall t id amounts, bytes_ok (ba_data id) -> zlen (ba_data id) = 32 -> Forall u64_ok amounts ->
  out_value (slp_send_output t id amounts) = 0 /\
  exists a, script_ser_ops (out_script (slp_send_output t id amounts)) = Ok a /\
    slp_fields (ba_data a) = Some ([slp_lokad; [type_number t]; txt_send; rev (ba_data id)] ++ map (be_bytes 8) amounts).
Proof.
  intros t id amounts Hb Hl Ha. destruct (send_is t id amounts) as (l & E & S). rewrite E. split; [reflexivity|]. destruct (out_fields 0 l) as (a & Ea & F & _).
  - apply Forall_map with (f := snd) (P := fun d => bytes_ok d /\ zlen d < 2 ^ 32). rewrite S. apply Forall_app. split.
    + repeat (apply Forall_cons; [apply small_field|]); try apply Forall_nil; try (unfold zlen; cbn; lia); try (repeat (constructor; [unfold byte_ok; try (destruct t; cbn); lia|]); constructor).
      * unfold token_id_to_vec, hash_to_vec_le. now apply bytes_ok_rev.
      * unfold token_id_to_vec, hash_to_vec_le, zlen in *. rewrite rev_length. lia.
    + apply Forall_forall. intros d Hd. apply in_map_iff in Hd. destruct Hd as (v & <- & _). apply small_field; [apply be_bytes_ok|rewrite be_bytes_len; lia].
  - exists a. split; [exact Ea|]. rewrite F, S. unfold token_id_to_vec, hash_to_vec_le. destruct t; reflexivity.
Qed.
Print Assumptions C35_send_fields.
Theorem C35_send : forall t id amounts, bytes_ok (ba_data id) -> zlen (ba_data id) = 32 -> Forall u64_ok amounts ->
  exists a, script_ser_ops (out_script (slp_send_output t id amounts)) = Ok a /\
    (1 <= zlen amounts <= 19 -> slp_parse (ba_data a) = Some (MSend (type_number t) (rev (ba_data id)) amounts)) /\
    (~ 1 <= zlen amounts <= 19 -> slp_parse (ba_data a) = None).
Proof.
  intros t id amounts Hb Hl Ha. destruct (C35_send_fields t id amounts Hb Hl Ha) as (_ & a & E & F). exists a. split; [exact E|]. unfold slp_parse. rewrite F. cbn [app]. rewrite !same_refl, type_ok_number. cbn [andb]. change (same txt_send txt_genesis) with false. cbn match.
  unfold send_fields_ok. assert (zlen (rev (ba_data id)) = 32) as -> by (unfold zlen in *; rewrite rev_length; lia). change (32 =? 32) with true. cbn [andb]. assert (zlen (map (be_bytes 8) amounts) = zlen amounts) as -> by (unfold zlen; now rewrite map_length).
  assert (forallb (fun a => zlen a =? 8) (map (be_bytes 8) amounts) = true) as ->. { apply forallb_forall. intros d Hd. apply in_map_iff in Hd. destruct Hd as (v & <- & _). rewrite be_bytes_len. reflexivity. }
  rewrite andb_true_r, type_value. assert (map be_value (map (be_bytes 8) amounts) = amounts) as ->. { clear E F. induction Ha as [|v r Hv _ IH]; [reflexivity|]. cbn [map]. rewrite IH, be_value_bytes by exact Hv. reflexivity. }
  destruct ((1 <=? zlen amounts) && (zlen amounts <=? 19)) eqn:B; split; intros W; try reflexivity; lia.
Qed.
Print Assumptions C35_send.

(** The token id written is the transaction id as wallets display it: its lower-case hexadecimal text is the text
    the hash prints; building a TokenId back from the written bytes gives the same hash. *)
Theorem C35_token_id : forall h, bytes_ok (ba_data h) -> zlen (ba_data h) = 32 ->
  hex_text (hash_display h) (token_id_to_vec (token_id_from_hash h)) /\
  token_id_from_slice (token_id_to_vec (token_id_from_hash h)) = Ok (ba_unnamed (ba_data h)) /\
  token_id_as_slice_be (token_id_from_hash h) = ba_data h /\ token_id_hash (token_id_from_hash h) = h.
Proof.
  intros h H L. destruct (C34_texts h H) as (_ & T & D). rewrite D. destruct (proj1 (T _) eq_refl) as [T1 _]. split; [exact T1|]. split; [|split; reflexivity]. apply C34_round_trip; assumption.
Qed.
Print Assumptions C35_token_id.
(** SLP outputs are recognised as data outputs, not as payments. *)
Theorem C35_nulldata : forall prefix p t id amounts,
  (exists ops, script_destination prefix (out_script (slp_genesis_output p)) = Ok (Nulldata ops)) /\
  (exists ops, script_destination prefix (out_script (slp_send_output t id amounts)) = Ok (Nulldata ops)).
Proof. intros. split; eexists; reflexivity. Qed.
Print Assumptions C35_nulldata.
(** The limits are not checked: more than 19 amounts, none, or a document hash given as the usual 64 hexadecimal
    characters produce transactions SLP validators ignore (which burns the tokens spent). *)
Theorem C35_limits_unchecked_refuted :
  (forall t id amounts, bytes_ok (ba_data id) -> zlen (ba_data id) = 32 -> Forall u64_ok amounts -> (amounts = [] \/ 20 <= zlen amounts) ->
    exists a, script_ser_ops (out_script (slp_send_output t id amounts)) = Ok a /\ slp_parse (ba_data a) = None) /\
  (forall p, params_ok p -> zlen (g_document_hash p) = 64 -> exists a, script_ser_ops (out_script (slp_genesis_output p)) = Ok a /\ slp_parse (ba_data a) = None).
Proof.
  split.
  - intros t id amounts H1 H2 H3 H4. destruct (C35_send t id amounts H1 H2 H3) as (a & E & _ & N). exists a. split; [exact E|]. apply N. destruct H4 as [->|H4]; [unfold zlen; cbn; lia|lia].
  - intros p H L. destruct (C35_genesis p H) as (a & E & _ & N). exists a. split; [exact E|]. apply N. intros (W & _). destruct W as [W|W]; [rewrite W in L; discriminate|lia].
Qed.
Print Assumptions C35_limits_unchecked_refuted.
Definition ex_genesis : genesis_params := GenesisParams Fungible [84; 75] [84; 111; 107] [] (repeat 7 32) 8 (Some 2) 1000000.
Definition ex_id : barray := ba_unnamed (map Z.of_nat (seq 0 32)).
Example C35_nonvacuous : params_ok ex_genesis /\ within_limits ex_genesis /\
  (exists a, script_ser_ops (out_script (slp_genesis_output ex_genesis)) = Ok a /\ slp_parse (ba_data a) = Some (MGenesis (genesis_of ex_genesis)) /\
    firstn 16 (ba_data a) = [0x6a; 4; 0x53; 0x4c; 0x50; 0; 1; 1; 7; 0x47; 0x45; 0x4e; 0x45; 0x53; 0x49; 0x53]) /\
  bytes_ok (ba_data ex_id) /\ zlen (ba_data ex_id) = 32 /\ Forall u64_ok [5; 18446744073709551615] /\
  (exists a, script_ser_ops (out_script (slp_send_output Nft1Group ex_id [5; 18446744073709551615])) = Ok a /\
    slp_parse (ba_data a) = Some (MSend 0x81 (map Z.of_nat (rev (seq 0 32))) [5; 18446744073709551615])) /\
  (exists a, script_ser_ops (out_script (slp_send_output Fungible ex_id (repeat 1 20))) = Ok a /\ slp_parse (ba_data a) = None).
Proof.
  split. { unfold params_ok, text_ok, ex_genesis. cbn [g_ticker g_name g_document_url g_document_hash g_decimals g_mint_baton_vout g_initial_quantity]. unfold u64_ok.
    assert (L : forall l : list Z, zlen l <= 32 -> zlen l < 2 ^ 32) by (intros l; change (2 ^ 32) with 4294967296; lia).
    assert (B : forall l : list Z, forallb (fun b => (0 <=? b) && (b <? 256)) l = true -> bytes_ok l). { intros l H. rewrite forallb_forall in H. apply Forall_forall. intros x Hx. specialize (H x Hx). unfold byte_ok. lia. }
    repeat split; try (apply B; reflexivity); try (apply L; vm_compute; discriminate); try (unfold byte_ok in *; lia); match goal with H : Some 2 = Some _ |- _ => injection H as <-; lia end. }
  split. { unfold within_limits, ex_genesis. cbn. split; [right; reflexivity|]. split; [lia|]. split; [intros v E; injection E as <-; lia|discriminate]. }
  split. { eexists. split; [vm_compute; reflexivity|]. split; vm_compute; reflexivity. }
  split. { apply Forall_forall. intros x Hx. apply in_map_iff in Hx. destruct Hx as (n & <- & Hn). apply in_seq in Hn. unfold byte_ok. lia. }
  split; [reflexivity|]. split. { repeat constructor; unfold u64_ok; lia. }
  split; (eexists; split; [vm_compute; reflexivity|vm_compute; reflexivity]).
Qed.

(** C35: the transaction types are displayed, and written into the output, by their names. *)
Theorem C35_type_names : tx_type_text GENESIS = Model_Address.text "GENESIS" /\ tx_type_text SEND = Model_Address.text "SEND" /\
  tx_type_text MINT = Model_Address.text "MINT" /\ tx_type_text COMMIT = Model_Address.text "COMMIT".
Proof. repeat split; reflexivity. Qed.
Print Assumptions C35_type_names.
