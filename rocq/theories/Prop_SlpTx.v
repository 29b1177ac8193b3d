(** Property C68: SLP tokens arrive at the outputs they are meant for. *)
From Coq Require Import String.
From Verif Require Import Base BaseLemmas Model_Encoding Model_ByteArray Proofs_ByteArray Model_Opcode Model_Script Spec_Script Proofs_Script Model_Code Spec_Code Model_Destination
  Model_Hash Model_Slp Spec_Slp Prop_Slp Model_Preimage Spec_Preimage Proofs_Preimage Prop_Preimage Model_TxBuilder Spec_TxBuilder Spec_Calls Proofs_TxBuilder4 Prop_TxBuilder Prop_TxBuilder2 Prop_Calls
  Spec_Network Spec_NetView Proofs_Network2 Proofs_Network3 Proofs_Network4 Prop_Network Prop_Code Spec_SlpTx.
Local Open Scope string_scope.
Local Open Scope list_scope.
Local Open Scope Z_scope.

Lemma outputs_seen sigs sha release (v lt : Z) (l : list (@call sigs)) b rs u t si so raw nt outs rest :
  run_calls (builder_new sigs v lt) l = (b, rs) -> unsigned_of sha release b u -> final_tx u t -> tx_value si so t -> tx_ser t = Ok raw -> net_ok nt -> net_bytes nt = ba_data raw ->
  asked_outputs l = map KnownValue outs ++ rest -> exists ns more, nt_outputs nt = ns ++ more /\ Forall2 as_output outs ns.
Proof.
  intros ER HU HT V Er On Bn EA. destruct (C28_calls sha release v lt l b rs u t ER HU HT) as (_ & _ & _ & (vs & HF) & _). rewrite EA in HF. destruct (filled_knowns _ _ _ _ HF) as (vs' & os' & _ & Eo & _).
  destruct (ser_is_net _ _ _ _ _ V Er On Bn) as (_ & _ & No & _). rewrite Eo in No. apply Forall2_app_inv_l in No. destruct No as (ns & more & Hn & _ & ->). eauto.
Qed.
Lemma seen_bytes o n a : as_output o n -> script_ser_ops (out_script o) = Ok a -> no_script n = ba_data a.
Proof. intros [_ (x & E & D)] Ea. assert (x = a) as -> by congruence. congruence. Qed.
Lemma seq_from n : forall m, seq m n = map (fun k => (m + k)%nat) (seq 0 n).
Proof. induction n as [|n IH]; intros m; [reflexivity|]. cbn [seq map]. f_equal; [lia|]. rewrite (IH (S m)), (IH 1%nat), map_map. apply map_ext. intros k. lia. Qed.
Lemma sum_seq (f : nat -> Z) n m : fold_right Z.add 0 (map f (seq m n)) = fold_right Z.add 0 (map (fun k => f (m + k)%nat) (seq 0 n)).
Proof. rewrite (seq_from n m), map_map. reflexivity. Qed.
Lemma sum_nth l : forall n, (length l <= n)%nat -> fold_right Z.add 0 (map (fun k => nth k l 0) (seq 0 n)) = fold_right Z.add 0 l.
Proof.
  induction l as [|x l IH]; intros n H.
  - cbn [fold_right]. induction (seq 0 n) as [|k r IHr]; [reflexivity|]. cbn [map fold_right]. rewrite IHr. destruct k; reflexivity.
  - destruct n as [|n]; [cbn in H; lia|]. cbn [seq map fold_right nth]. f_equal. rewrite sum_seq. cbn [Nat.add nth]. apply IH. cbn in H. lia.
Qed.

(** C68, SEND: if the message is the first output asked for and the receivers' outputs follow it in the order of the amounts, then
    whatever else is asked for afterwards (change included), in every finished transaction an SLP indexer sees each amount at its
    receiver's output, no tokens anywhere else, and none lost. *)
Theorem C68_send : forall sigs sha256d release version lock_time (calls : list (@call sigs)) b rs u t in_size out_size raw nt ttype id (receivers : list (tx_output * Z)) rest,
  run_calls (builder_new sigs version lock_time) calls = (b, rs) -> unsigned_of sha256d release b u -> final_tx u t -> tx_value in_size out_size t ->
  tx_ser t = Ok raw -> net_ok nt -> net_bytes nt = ba_data raw ->
  bytes_ok (ba_data id) -> zlen (ba_data id) = 32 -> Forall (fun r => u64_ok (snd r)) receivers -> 1 <= zlen receivers <= 19 ->
  asked_outputs calls = map KnownValue (slp_send_output ttype id (map snd receivers) :: map fst receivers) ++ rest ->
  slp_of_tx nt = Some (MSend (type_number ttype) (rev (ba_data id)) (map snd receivers)) /\
  (forall k o amount, nth_error receivers k = Some (o, amount) -> token_amount nt (S k) = amount /\ exists n, nth_error (nt_outputs nt) (S k) = Some n /\ as_output o n) /\
  (forall vout, vout = O \/ (length receivers < vout)%nat -> token_amount nt vout = 0) /\
  tokens_held nt = fold_right Z.add 0 (map snd receivers).
Proof.
  intros sigs sha release v lt l b rs u t si so raw nt ty id recv rest ER HU HT V Er On Bn Hb Hl Hu Hn EA.
  destruct (outputs_seen _ _ _ _ _ _ _ _ _ _ _ _ _ _ _ _ ER HU HT V Er On Bn EA) as (ns & more & En & F). inversion F as [|o n os ns' Ho Fs E1 E2]; subst o os ns.
  assert (Hau : Forall u64_ok (map snd recv)) by now apply Forall_map. destruct (C35_send ty id (map snd recv) Hb Hl Hau) as (a & Ea & HP & _).
  assert (Hz : 1 <= zlen (map snd recv) <= 19) by (unfold zlen in *; now rewrite map_length). specialize (HP Hz).
  assert (HS : slp_of_tx nt = Some (MSend (type_number ty) (rev (ba_data id)) (map snd recv))) by (unfold slp_of_tx; rewrite En; cbn [app]; rewrite (seen_bytes _ _ _ Ho Ea); exact HP).
  assert (Hlen : length ns' = length recv) by (pose proof (Forall2_len _ _ _ Fs) as FL; rewrite map_length in FL; congruence).
  assert (HA : forall k, (k < length (nt_outputs nt))%nat -> token_amount nt k = match k with O => 0 | S j => nth j (map snd recv) 0 end) by (intros k Hk; unfold token_amount; rewrite HS; apply Nat.ltb_lt in Hk; now rewrite Hk).
  assert (Hge : (S (length recv) <= length (nt_outputs nt))%nat) by (rewrite En, app_length; cbn [length]; lia).
  split; [exact HS|]. split; [|split].
  - intros k o amount Hk. assert (Hlt : (k < length recv)%nat) by (apply nth_error_Some; congruence). split.
    + rewrite HA by lia. apply nth_error_nth. now rewrite nth_error_map, Hk.
    + rewrite En. cbn [app nth_error]. rewrite nth_error_app1 by lia. assert (Hk' : nth_error (map fst recv) k = Some o) by (now rewrite nth_error_map, Hk). clear - Fs Hk'. revert k Hk'.
      induction Fs as [|x y l l' Hxy _ IH]; intros [|k] Hk; try discriminate; cbn [nth_error] in *; [injection Hk as <-; eauto|eauto].
  - intros k Hk. destruct (lt_dec k (length (nt_outputs nt))) as [H|H].
    + rewrite HA by exact H. destruct k as [|k]; [reflexivity|]. apply nth_overflow. rewrite map_length. lia.
    + unfold token_amount. apply Nat.ltb_nlt in H. now rewrite H.
  - unfold tokens_held. destruct (length (nt_outputs nt)) as [|n0] eqn:El; [lia|].
    rewrite (map_ext_in _ (fun k => match k with O => 0 | S j => nth j (map snd recv) 0 end)) by (intros k Hk; apply in_seq in Hk; apply HA; lia).
    cbn [seq map fold_right]. rewrite sum_seq. cbn [Nat.add]. rewrite Z.add_0_l. apply sum_nth. rewrite map_length. lia.
Qed.
Print Assumptions C68_send.

(** C68, naming: a SEND built with the hash of a finished transaction sends the token that transaction made, by the network's
    name for it, and (barring a collision) of no other transaction. *)
Theorem C68_send_names_genesis : forall sigs sha256d release version lock_time (calls : list (@call sigs)) b rs u t in_size out_size raw nt ttype (receivers : list (tx_output * Z)) rest t1 h1 nt1,
  (forall m, bytes_ok (sha256d m) /\ zlen (sha256d m) = 32) ->
  tx_value in_size out_size t1 -> tx_hashed sha256d in_size out_size t1 = Ok h1 -> net_ok nt1 -> net_bytes nt1 = ba_data (tx_raw h1) ->
  run_calls (builder_new sigs version lock_time) calls = (b, rs) -> unsigned_of sha256d release b u -> final_tx u t -> tx_value in_size out_size t ->
  tx_ser t = Ok raw -> net_ok nt -> net_bytes nt = ba_data raw ->
  Forall (fun r => u64_ok (snd r)) receivers -> 1 <= zlen receivers <= 19 ->
  asked_outputs calls = map KnownValue (slp_send_output ttype (token_id_from_hash (tx_hash h1)) (map snd receivers) :: map fst receivers) ++ rest ->
  as_net t1 nt1 /\ sends_token (tx_id sha256d nt1) nt /\
  (forall nt2, net_ok nt2 -> (sha256d (net_bytes nt2) = sha256d (net_bytes nt1) -> net_bytes nt2 = net_bytes nt1) -> sends_token (tx_id sha256d nt2) nt -> nt2 = nt1).
Proof.
  intros sigs sha release v lt l b rs u t si so raw nt ty recv rest t1 h1 nt1 Hsha V1 H1 O1 B1 ER HU HT V Er On Bn Hu Hn EA.
  destruct (C18_hashed_coherent sha (fun m => proj2 (Hsha m)) si so t1 V1) as (raw1 & E1 & h & Eh & _ & Eraw & _ & Ehash). rewrite H1 in Eh. injection Eh as <-.
  unfold token_id_from_hash in EA. assert (Hb : bytes_ok (ba_data (tx_hash h1)) /\ zlen (ba_data (tx_hash h1)) = 32) by (rewrite Ehash; apply Hsha). destruct Hb as [Hb Hl].
  destruct (C68_send sigs sha release v lt l b rs u t si so raw nt ty (tx_hash h1) recv rest ER HU HT V Er On Bn Hb Hl Hu Hn EA) as (HS & _).
  rewrite Ehash, <- B1 in HS. split; [|split].
  - apply (ser_is_net si so t1 raw1 nt1 V1); [exact E1|exact O1|congruence].
  - exists (type_number ty), (map snd recv). exact HS.
  - intros nt2 O2 Hc (ty2 & am2 & HS2). rewrite HS in HS2. injection HS2 as _ Eid _. unfold tx_id in Eid. apply (f_equal (@rev Z)) in Eid. rewrite !rev_involutive in Eid. symmetry in Eid. apply Hc in Eid. now apply net_bytes_inj.
Qed.
Print Assumptions C68_send_names_genesis.

(** C68, GENESIS: likewise the quantity is at the output asked for next, and the right to mint at the output named. *)
Theorem C68_genesis : forall sigs sha256d release version lock_time (calls : list (@call sigs)) b rs u t in_size out_size raw nt p owner rest,
  run_calls (builder_new sigs version lock_time) calls = (b, rs) -> unsigned_of sha256d release b u -> final_tx u t -> tx_value in_size out_size t ->
  tx_ser t = Ok raw -> net_ok nt -> net_bytes nt = ba_data raw -> params_ok p -> within_limits p ->
  asked_outputs calls = map KnownValue (slp_genesis_output p :: owner :: rest) ->
  slp_of_tx nt = Some (MGenesis (genesis_of p)) /\
  (token_amount nt 1 = g_initial_quantity p /\ exists n, nth_error (nt_outputs nt) 1 = Some n /\ as_output owner n) /\
  (forall vout, vout <> 1%nat -> token_amount nt vout = 0) /\ tokens_held nt = g_initial_quantity p /\
  (forall vout, minting_baton nt vout <-> g_mint_baton_vout p = Some (Z.of_nat vout) /\ (vout < 2 + length rest)%nat).
Proof.
  intros sigs sha release v lt l b rs u t si so raw nt p owner rest ER HU HT V Er On Bn Hp Hw EA.
  assert (Hlen : length (nt_outputs nt) = (2 + length rest)%nat).
  { destruct (C28_calls sha release v lt l b rs u t ER HU HT) as (_ & _ & _ & (vs & HF) & _). rewrite EA in HF. rewrite <- (app_nil_r (map KnownValue _)) in HF. destruct (filled_knowns _ _ _ _ HF) as (vs' & os' & _ & Eo & HF'). inversion HF'; subst.
    destruct (ser_is_net _ _ _ _ _ V Er On Bn) as (_ & _ & No & _). apply Forall2_len in No. rewrite Eo, app_nil_r in No. cbn [length] in No. cbn [Nat.add]. congruence. }
  destruct (outputs_seen _ _ _ _ _ _ _ _ _ _ _ _ _ _ (slp_genesis_output p :: owner :: rest) [] ER HU HT V Er On Bn) as (ns & more & En & F); [now rewrite app_nil_r|].
  inversion F as [|o n os ns' Ho Fs E1 E2]; subst o os ns. inversion Fs as [|o n2 os ns2 Ho2 _ E1 E2]; subst o os ns'.
  destruct (C35_genesis p Hp) as (a & Ea & HP & _). specialize (HP Hw).
  assert (HS : slp_of_tx nt = Some (MGenesis (genesis_of p))) by (unfold slp_of_tx; rewrite En; cbn [app]; rewrite (seen_bytes _ _ _ Ho Ea); exact HP).
  assert (H1 : token_amount nt 1 = g_initial_quantity p) by (unfold token_amount; rewrite HS, Hlen; reflexivity).
  assert (H0 : forall k, k <> 1%nat -> token_amount nt k = 0).
  { intros k Hk. unfold token_amount. rewrite HS. apply Nat.eqb_neq in Hk. rewrite Hk. now destruct (Nat.ltb _ _). }
  split; [exact HS|]. split; [split; [exact H1|exists n2; split; [rewrite En; reflexivity|exact Ho2]]|]. split; [exact H0|]. split.
  - unfold tokens_held. rewrite Hlen. cbn [Nat.add seq map fold_right]. rewrite H1, (H0 0%nat) by lia. rewrite (map_ext_in _ (fun _ => 0)) by (intros k Hk; apply in_seq in Hk; apply H0; lia).
    assert (forall r : list nat, fold_right Z.add 0 (map (fun _ => 0) r) = 0) as -> by (induction r; cbn; auto). lia.
  - intros k. unfold minting_baton. rewrite Hlen, HS. split.
    + intros (Hk & g & Eg & Hb). injection Eg as <-. cbn [genesis_of ge_baton] in Hb. auto.
    + intros (Hb & Hk). split; [exact Hk|]. exists (genesis_of p). auto.
Qed.
Print Assumptions C68_genesis.

(** C68, trap: a change output between the message and a receiver's output is left out when too little is left over, and then the
    receiver's amount is lost and it gets somebody else's. *)
Definition ex_receiver : tx_output := TxOutput 546 (map tagged_from_op [OCode OP_DUP]).
Definition ex_token : token_id := ba_unnamed (repeat 7 32).
Definition ex_slp_sig : signatory ex_sigs := Signatory 0 (ba_unnamed []) false (KindOne 0 0x41 (fun _ _ _ _ _ => Ok [])).
Definition ex_slp_calls (change_first : bool) (value : Z) : list (@call ex_sigs) :=
  [CallInput (ex_in 1 value) ex_lock ex_slp_sig; CallOutput (slp_send_output Fungible ex_token [5; 7])] ++
  (if change_first then [CallLeftover ex_lock; CallOutput ex_receiver] else [CallOutputs [ex_receiver; ex_receiver]; CallLeftover ex_lock]).
Definition ex_slp_tx (change_first : bool) (value : Z) : unhashed_tx :=
  match build ex_sha false (fst (run_calls (builder_new ex_sigs 2 77) (ex_slp_calls change_first value))) with Ok u => partial_tx u | _ => UnhashedTx 0 [] [] 0 end.
Definition net_view (t : unhashed_tx) : net_tx :=
  let sb s := match script_ser_ops s with Ok x => ba_data x | _ => [] end in
  NetTx (tx_version t) (map (fun i => NetInput (ba_data (op_tx_hash (in_prev_out i))) (op_vout (in_prev_out i)) (sb (in_script i)) (in_sequence i)) (tx_inputs t))
    (map (fun o => NetOutput (out_value o) (sb (out_script o))) (tx_outputs t)) (tx_lock_time t).
Theorem C68_change_before_receiver_refuted : exists (calls : list (@call ex_sigs)) change receiver b rs u raw nt,
  asked_outputs calls = [KnownValue (slp_send_output Fungible ex_token [5; 7]); change; KnownValue receiver] /\
  run_calls (builder_new ex_sigs 2 77) calls = (b, rs) /\ build ex_sha false b = Ok u /\ tx_ser (partial_tx u) = Ok raw /\ net_bytes nt = ba_data raw /\
  (exists n, nth_error (nt_outputs nt) 1 = Some n /\ as_output receiver n) /\ token_amount nt 1 = 5 /\ tokens_held nt = 5.
Proof.
  exists (ex_slp_calls true 900), (Leftover 546 18446744073709551615 0 ex_lock), ex_receiver. eexists _, _, _, _, (net_view (ex_slp_tx true 900)).
  split; [reflexivity|]. split; [cbn [run_calls ex_slp_calls app run_call]; reflexivity|]. split; [vm_compute; reflexivity|]. split; [vm_compute; reflexivity|]. split; [vm_compute; reflexivity|].
  split; [eexists; split; [vm_compute; reflexivity|split; [vm_compute; reflexivity|eexists; split; vm_compute; reflexivity]]|]. split; vm_compute; reflexivity.
Qed.
Print Assumptions C68_change_before_receiver_refuted.
(** with enough left over nothing goes wrong; and in the order C68_send asks for, never *)
Lemma ex_slp_tx_eq : ex_slp_tx false 1500 = ltac:(let x := eval vm_compute in (ex_slp_tx false 1500) in exact x). Proof. vm_compute. reflexivity. Qed.
Lemma ex_slp_tx_value : tx_value 200 100 (ex_slp_tx false 1500).
Proof.
  rewrite ex_slp_tx_eq. unfold tx_value. cbn [tx_version tx_inputs tx_outputs tx_lock_time]. split; [unfold i32_ok; lia|]. split; [|split; [|unfold u32_ok; lia]].
  - split; [|split; vm_compute; [discriminate|reflexivity]]. repeat (apply Forall_cons || apply Forall_nil); unfold input_value, outpoint_value, fixed_value, u32_ok; cbn [in_prev_out in_script in_sequence op_tx_hash op_vout];
      (split; [split; [split; [cbn [ba_data]; repeat (apply Forall_cons || apply Forall_nil); unfold byte_ok; lia|vm_compute; reflexivity]|lia]|split; [|lia]]);
      (eapply ex_script_value; [opok|eexists; split; vm_compute; reflexivity|lia]).
  - split; [|split; vm_compute; [discriminate|reflexivity]]. repeat (apply Forall_cons || apply Forall_nil); unfold output_value, u64_ok; cbn [out_value out_script]; (split; [lia|]).
    all: eapply ex_script_value; [opok|eexists; split; vm_compute; reflexivity|lia].
Qed.
Example C68_nonvacuous : exists b rs u raw, run_calls (builder_new ex_sigs 2 77) (ex_slp_calls false 1500) = (b, rs) /\ build ex_sha false b = Ok u /\ partial_tx u = ex_slp_tx false 1500 /\
  tx_value 200 100 (ex_slp_tx false 1500) /\ tx_ser (ex_slp_tx false 1500) = Ok raw /\ net_ok (net_view (ex_slp_tx false 1500)) /\ net_bytes (net_view (ex_slp_tx false 1500)) = ba_data raw /\
  asked_outputs (ex_slp_calls false 1500) = map KnownValue (slp_send_output Fungible ex_token (map snd [(ex_receiver, 5); (ex_receiver, 7)]) :: map fst [(ex_receiver, 5); (ex_receiver, 7)]) ++ [Leftover 546 18446744073709551615 0 ex_lock] /\
  token_amount (net_view (ex_slp_tx false 1500)) 2 = 7 /\ token_amount (net_view (ex_slp_tx true 90000)) 2 = 7 /\ tokens_held (net_view (ex_slp_tx true 90000)) = 12.
Proof.
  do 4 eexists. split; [cbn [run_calls ex_slp_calls app run_call]; reflexivity|]. split; [vm_compute; reflexivity|]. split; [vm_compute; reflexivity|]. split; [exact ex_slp_tx_value|]. split; [vm_compute; reflexivity|]. split.
  { unfold net_ok. split; [vm_compute; split; [discriminate|reflexivity]|]. split; [vm_compute; split; [discriminate|reflexivity]|]. split; [vm_compute; reflexivity|]. split; [vm_compute; reflexivity|].
    split; repeat (apply Forall_cons || apply Forall_nil); repeat split; try (vm_compute; reflexivity); vm_compute; discriminate. }
  split; [vm_compute; reflexivity|]. split; [reflexivity|]. split; [vm_compute; reflexivity|]. split; vm_compute; reflexivity.
Qed.

(** a token made by one example transaction and sent by another *)
Definition ex_made : outcome tx := tx_hashed ex_sha 200 100 (ex_slp_tx false 1500).
Definition ex_made_id : token_id := match ex_made with Ok h => token_id_from_hash (tx_hash h) | _ => ba_unnamed [] end.
Definition ex_send_calls : list (@call ex_sigs) :=
  [CallInput (ex_in 1 1500) ex_lock ex_slp_sig; CallOutput (slp_send_output Fungible ex_made_id [5; 7]); CallOutputs [ex_receiver; ex_receiver]; CallLeftover ex_lock].
Definition ex_send_tx : unhashed_tx := match build ex_sha false (fst (run_calls (builder_new ex_sigs 2 77) ex_send_calls)) with Ok u => partial_tx u | _ => UnhashedTx 0 [] [] 0 end.
Example C68_names_nonvacuous : exists h1 b rs u raw, ex_made = Ok h1 /\ net_bytes (net_view (ex_slp_tx false 1500)) = ba_data (tx_raw h1) /\
  run_calls (builder_new ex_sigs 2 77) ex_send_calls = (b, rs) /\ build ex_sha false b = Ok u /\ partial_tx u = ex_send_tx /\ tx_ser ex_send_tx = Ok raw /\ net_bytes (net_view ex_send_tx) = ba_data raw /\
  asked_outputs ex_send_calls = map KnownValue (slp_send_output Fungible (token_id_from_hash (tx_hash h1)) [5; 7] :: [ex_receiver; ex_receiver]) ++ [Leftover 546 18446744073709551615 0 ex_lock] /\
  slp_of_tx (net_view ex_send_tx) = Some (MSend 1 (tx_id ex_sha (net_view (ex_slp_tx false 1500))) [5; 7]).
Proof.
  do 5 eexists. split; [vm_compute; reflexivity|]. split; [vm_compute; reflexivity|]. split; [cbn [run_calls ex_send_calls app run_call]; reflexivity|]. split; [vm_compute; reflexivity|]. split; [vm_compute; reflexivity|].
  split; [vm_compute; reflexivity|]. split; [vm_compute; reflexivity|]. split; [vm_compute; reflexivity|]. vm_compute. reflexivity.
Qed.
