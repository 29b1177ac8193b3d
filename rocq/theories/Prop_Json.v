(** Properties C32, C33: transactions as JSON. *)
From Verif Require Import Base BaseLemmas Model_Integer Spec_Integer Model_ByteArray Proofs_ByteArray Model_Opcode Model_Script Proofs_Script Model_Code Model_Json Spec_Json Proofs_Json Proofs_Json2 Proofs_Json3 Spec_Base64.
Local Open Scope string_scope.
Local Open Scope list_scope.
Local Open Scope Z_scope.

(** ** C32 *)
Lemma written_ok enc dec t : base64_ok enc dec -> tx_in_range t -> tables_fit (json_from_tx enc t) ->
  exists d ins outs, json_from_tx enc t = JsonTx d (tx_version t) ins outs (tx_lock_time t) /\ winv enc d /\
    d_tx (tx_to_json enc t) = Some (JsonTx (reset d) (tx_version t) ins outs (tx_lock_time t)).
Proof.
  intros RT HR HT. destruct (tx_fuel t HR) as (n & Hn). destruct (tx_back enc dec RT n t (Hn n (Nat.le_refl n))) as (d & ins & outs & E & W & _ & F1 & F2).
  exists d, ins, outs. split; [exact E|]. split; [exact W|]. unfold tx_to_json. unfold tables_fit in HT. rewrite E in *. cbn [jx_data] in HT. destruct HR as (R1 & _ & _ & R4).
  apply (d_tx_ok (bound d)); cbn [jx_data jx_version jx_inputs jx_outputs jx_lock_time]; try assumption; [unfold bound; lia|].
  apply Forall_forall. intros j Hj. apply In_nth_error in Hj. destruct Hj as (idx & Hj). destruct (w_arr enc d W idx j Hj) as (A & B & C). assert (idx < length (jd_byte_arrays d))%nat by (apply nth_error_Some; congruence).
  split; [unfold idx64; lia|]. split; [destruct (jb_name j); cbn in *; [unfold idx64; lia|exact I]|]. destruct (jb_preimages j); cbn in *; [|exact I]. eapply Forall_impl; [|exact C]. intros p Hp. cbn in Hp. unfold idx64. lia.
Qed.
(** Writing a transaction as JSON and reading it back gives the transaction, with everything in it. *)
Theorem C32_round_trip : forall enc dec t, base64_ok enc dec -> tx_in_range t -> tables_fit (json_from_tx enc t) ->
  reads_to dec (tx_to_json enc t) (Ok t).
Proof.
  intros enc dec t RT HR HT. destruct (written_ok enc dec t RT HR HT) as (d & ins & outs & E & W & D). destruct (tx_fuel t HR) as (n & Hn). exists n. intros fuel Hf.
  unfold json_to_tx. rewrite D. destruct (tx_back enc dec RT fuel t (Hn fuel Hf)) as (d' & ins' & outs' & E' & _ & M & _). rewrite E in E'. injection E' as <- <- <-. exact M.
Qed.
Print Assumptions C32_round_trip.
(** The same without going through JSON values. *)
Theorem C32_round_trip_tables : forall enc dec t, base64_ok enc dec -> tx_in_range t ->
  exists n, forall fuel, (n <= fuel)%nat -> let j := json_from_tx enc t in
    json_make_tx dec fuel (JsonTx (JsonData (jd_data_b64 (jx_data j)) (jd_byte_arrays (jx_data j)) (jd_strings (jx_data j)) [] []) (jx_version j) (jx_inputs j) (jx_outputs j) (jx_lock_time j)) = Some (Ok t).
Proof.
  intros enc dec t RT HR. destruct (tx_fuel t HR) as (n & Hn). exists n. intros fuel Hf. destruct (tx_back enc dec RT fuel t (Hn fuel Hf)) as (d & ins & outs & E & _ & M & _). cbv zeta. rewrite E. exact M.
Qed.
Print Assumptions C32_round_trip_tables.
(** The written tables mean the transaction, in the sense of the reader-independent specification. *)
Theorem C32_written_means : forall enc dec t, base64_ok enc dec -> tx_in_range t -> tx_means dec (json_from_tx enc t) t.
Proof.
  intros enc dec t RT HR. destruct (tx_fuel t HR) as (n & Hn). destruct (tx_back enc dec RT n t (Hn n (Nat.le_refl n))) as (d & ins & outs & E & _ & M & _). rewrite E. apply make_tx_sound in M; [|intros b i []].
  destruct M as (A & B & C & D). cbn [jx_data jx_version jx_inputs jx_outputs jx_lock_time] in *. split; [exact A|]. assert (same d (reset d)) as S by (repeat split).
  split; [exact (stable_list _ (stable_input dec) _ _ _ _ S B)|]. split; [exact (stable_list _ (stable_output dec) _ _ _ _ S C)|exact D].
Qed.
Print Assumptions C32_written_means.
(** Equal strings and equal data are stored once. *)
Theorem C32_strings_once : forall enc dec t, base64_ok enc dec -> tx_in_range t -> NoDup (jd_strings (jx_data (json_from_tx enc t))).
Proof.
  intros enc dec t RT HR. destruct (tx_fuel t HR) as (n & Hn). destruct (tx_back enc dec RT n t (Hn n (Nat.le_refl n))) as (d & ins & outs & E & W & _). rewrite E. cbn [jx_data].
  apply NoDup_nth_error. intros i j Hi Hij. destruct (nth_error (jd_strings d) i) as [s|] eqn:Ei; [|apply nth_error_None in Ei; lia]. symmetry in Hij. apply (w_str enc d W) in Ei, Hij.
  pose proof (w_str1 enc d W) as N. clear - Ei Hij N. induction (jd_string_indices d) as [|[k v] m IH]; [destruct Ei|]. inversion N as [|? ? N1 N2]; subst. destruct Ei as [X|X], Hij as [Y|Y].
  - congruence.
  - injection X as -> ->. exfalso. apply N1. change s with (fst (s, j)). now apply in_map.
  - injection Y as -> ->. exfalso. apply N1. change s with (fst (s, i)). now apply in_map.
  - now apply IH.
Qed.
Print Assumptions C32_strings_once.
Theorem C32_data_once : forall enc dec t, base64_ok enc dec -> tx_in_range t -> NoDup (jd_data_b64 (jx_data (json_from_tx enc t))).
Proof.
  intros enc dec t RT HR. destruct (tx_fuel t HR) as (n & Hn). destruct (tx_back enc dec RT n t (Hn n (Nat.le_refl n))) as (d & ins & outs & E & W & _). rewrite E. cbn [jx_data].
  apply NoDup_nth_error. intros i j Hi Hij. destruct (nth_error (jd_data_b64 d) i) as [s|] eqn:Ei; [|apply nth_error_None in Ei; lia]. symmetry in Hij.
  destruct (w_dat1 enc d W _ _ Ei) as (b & B1 & B2), (w_dat1 enc d W _ _ Hij) as (c & C1 & C2). destruct (w_dat enc d W _ _ B1) as [_ Hb], (w_dat enc d W _ _ C1) as [_ Hc].
  assert (b = c) as <- by (pose proof (RT b Hb); pose proof (RT c Hc); congruence).
  pose proof (w_dat2 enc d W) as N. clear - B1 C1 N. induction (jd_data_indices d) as [|[k v] m IH]; [destruct B1|]. inversion N as [|? ? N1 N2]; subst. destruct B1 as [X|X], C1 as [Y|Y].
  - congruence.
  - injection X as -> ->. exfalso. apply N1. change b with (fst (b, j)). now apply in_map.
  - injection Y as -> ->. exfalso. apply N1. change b with (fst (b, i)). now apply in_map.
  - now apply IH.
Qed.
Print Assumptions C32_data_once.
(** Every index in the array table is in range; an array's preimages come before it. *)
Theorem C32_indices_in_range : forall enc dec t idx j, base64_ok enc dec -> tx_in_range t ->
  let d := jx_data (json_from_tx enc t) in
  nth_error (jd_byte_arrays d) idx = Some j ->
  (jb_data j < length (jd_data_b64 d))%nat /\ opt_all (fun n => (n < length (jd_strings d))%nat) (jb_name j) /\ opt_all (Forall (fun p => (p < idx)%nat)) (jb_preimages j).
Proof.
  intros enc dec t idx j RT HR. destruct (tx_fuel t HR) as (n & Hn). destruct (tx_back enc dec RT n t (Hn n (Nat.le_refl n))) as (d & ins & outs & E & W & _). cbv zeta. rewrite E. apply (w_arr enc d W).
Qed.
Print Assumptions C32_indices_in_range.
(** Every compact form of an array entry is read back as written. *)
Theorem C32_compact_entries : forall data f name preimages, Z.of_nat data < 2 ^ 64 -> opt_all (fun n => Z.of_nat n < 2 ^ 64) name -> opt_all (Forall (fun p => Z.of_nat p < 2 ^ 64)) preimages ->
  d_byte_array (j_byte_array (JsonByteArray data f name preimages)) = Some (JsonByteArray data f name preimages).
Proof. intros data f name ps H1 H2 H3. apply d_byte_array_ok. split; [exact H1|]. split; [exact H2|exact H3]. Qed.
Print Assumptions C32_compact_entries.
(** Two different transactions never have the same JSON form. *)
Theorem C32_injective : forall enc dec t u, base64_ok enc dec -> tx_in_range t -> tx_in_range u -> tables_fit (json_from_tx enc t) -> tables_fit (json_from_tx enc u) ->
  tx_to_json enc t = tx_to_json enc u -> t = u.
Proof.
  intros enc dec t u RT Rt Ru Ft Fu E. destruct (C32_round_trip enc dec t RT Rt Ft) as (n & Hn), (C32_round_trip enc dec u RT Ru Fu) as (m & Hm). specialize (Hn (Nat.max n m) ltac:(lia)). specialize (Hm (Nat.max n m) ltac:(lia)).
  rewrite E in Hn. congruence.
Qed.
Print Assumptions C32_injective.

(** A transaction with two pushes of a hashed, named, split array; base64 after RFC 4648. *)
Definition ex_leaf : barray := BA [1; 2; 3; 4] (Some "secret") FPlain None.
Definition ex_hash : barray := BA [9; 9] (Some "secret") FSha256 (Some [ex_leaf; ex_leaf]).
Definition ex_json_op (o : op) : tagged_op := TaggedOp o "main.rs" 7 3 [(4, "OP_HASH160"); (5, "secret")] (Some [None; Some "secret"]) None.
Definition ex_json_tx : unhashed_tx :=
  UnhashedTx 2 [TxInput (TxOutpoint (ba_unnamed (repeat 5 32)) 1) [ex_json_op (OPushArray ex_hash true); ex_json_op (OPushInt (-7))] 4294967295 (Some [ex_json_op (OCode OP_CHECKSIG)]) (Some 1000) (Some false) (Some [65])]
    [TxOutput 900 [ex_json_op (OPushArray ex_hash false); ex_json_op (OPushBool true); ex_json_op (OInvalid 200)]] 0.
Lemma ex_json_in_range : tx_in_range ex_json_tx.
Proof.
  assert (HO : forall o, op_in_range o -> tagged_in_range (ex_json_op o)) by (intros o Ho; split; [exact Ho|]; repeat (first [apply conj|apply Forall_cons|apply Forall_nil]); unfold u32_ok; cbn [fst ex_json_op t_src_line t_src_column]; lia).
  assert (HL : deep_ok ex_leaf) by (split; [repeat constructor; unfold byte_ok; lia|exact I]).
  assert (HH : deep_ok ex_hash) by (split; [repeat constructor; unfold byte_ok; lia|split; [exact HL|split; [exact HL|exact I]]]).
  split; [cbn [ex_json_tx tx_version]; unfold i32_ok; lia|]. split; [|split; [|cbn [ex_json_tx tx_lock_time]; unfold u32_ok; lia]].
  - constructor; [|constructor]. split; [split; [apply Forall_forall; intros x Hx; apply repeat_spec in Hx; subst; unfold byte_ok; lia|exact I]|]. split; [reflexivity|]. split; [unfold u32_ok; cbn [in_prev_out op_vout]; lia|].
    split; [constructor; [now apply HO|constructor; [apply HO; cbn; unfold script_int; lia|constructor]]|]. split; [unfold u32_ok; cbn [in_sequence]; lia|]. split; [constructor; [now apply HO|constructor]|].
    split; [cbn [in_value opt_all]; unfold u64_ok; lia|]. cbn [in_sig_hash_flags opt_all]. constructor; [unfold u32_ok; lia|constructor].
  - constructor; [|constructor]. split; [cbn [out_value]; unfold u64_ok; lia|]. constructor; [now apply HO|]. constructor; [now apply HO|]. constructor; [|constructor]. apply HO. cbn. unfold byte_ok. lia.
Qed.
Example C32_nonvacuous : base64_ok rfc_encode rfc_decode /\ tx_in_range ex_json_tx /\ tables_fit (json_from_tx rfc_encode ex_json_tx) /\
  jd_strings (jx_data (json_from_tx rfc_encode ex_json_tx)) = ["secret"; "main.rs"; "OP_HASH160"] /\
  jd_data_b64 (jx_data (json_from_tx rfc_encode ex_json_tx)) = ["BQUFBQUFBQUFBQUFBQUFBQUFBQUFBQUFBQUFBQUFBQU="; "AQIDBA=="; "CQk="] /\
  map jb_preimages (jd_byte_arrays (jx_data (json_from_tx rfc_encode ex_json_tx))) = [None; None; None; Some [1%nat; 2%nat]; None; None; Some [4%nat; 5%nat]] /\
  json_to_tx rfc_decode 5 (tx_to_json rfc_encode ex_json_tx) = Some (Ok ex_json_tx).
Proof.
  split; [exact rfc_base64_ok|]. split; [exact ex_json_in_range|]. split; [unfold tables_fit; vm_compute; reflexivity|]. split; [vm_compute; reflexivity|]. split; [vm_compute; reflexivity|]. split; vm_compute; reflexivity.
Qed.

(** ** C33 *)
(** The reader accepts exactly the JSON values of the right shape whose tables have a meaning, with that meaning. *)
Theorem C33_reads_meaning : forall dec v t, reads_to dec v (Ok t) <-> exists j, d_tx v = Some j /\ tx_means dec j t.
Proof.
  intros dec v t. unfold reads_to, json_to_tx. split.
  - intros (n & H). specialize (H n (Nat.le_refl n)). destruct (d_tx v) as [j|] eqn:E; [|discriminate]. exists j. split; [reflexivity|]. eapply make_tx_sound; [eapply d_tx_empty_cache; exact E|exact H].
  - intros (j & E & M). rewrite E. apply make_tx_complete; [eapply d_tx_empty_cache; exact E|exact M].
Qed.
Print Assumptions C33_reads_meaning.
(** Once the reader has stopped, a larger stack does not change its result; so it has at most one result. *)
Theorem C33_result_unique : forall dec v n r, json_to_tx dec n v = Some r -> reads_to dec v r /\ forall r', reads_to dec v r' -> r' = r.
Proof.
  intros dec v n r H. split; [exists n; intros fuel Hf; eapply to_tx_more; eassumption|]. intros r' (m & Hm). specialize (Hm (Nat.max n m) ltac:(lia)). rewrite (to_tx_more dec n (Nat.max n m) v r ltac:(lia) H) in Hm. congruence.
Qed.
Print Assumptions C33_result_unique.
(** Tables without missing or circular array references: the reader stops, with a transaction or an error. *)
Theorem C33_no_panic : forall dec v,
  (forall j, d_tx v = Some j -> no_cycles (jx_data j) /\ Forall (fun i => (i < length (jd_byte_arrays (jx_data j)))%nat) (tx_arrays j)) ->
  exists r, reads_to dec v r /\ r <> Panic.
Proof.
  intros dec v H. destruct (d_tx v) as [j|] eqn:E.
  - destruct (H j eq_refl) as [H1 H2]. destruct (no_cycles_calm dec j H1 H2) as (n & Hn). destruct (Hn n (Nat.le_refl n)) as (r & Hr & N). exists r. split; [|exact N]. exists n. intros fuel Hf. unfold json_to_tx. rewrite E. eapply make_tx_more; eassumption.
  - exists (Err (EJson JShape)). split; [|discriminate]. exists O. intros fuel _. unfold json_to_tx. now rewrite E.
Qed.
Print Assumptions C33_no_panic.
(** If a transaction is returned, nothing it uses is missing, undecodable or circular. *)
Theorem C33_accepts_only_complete : forall dec v t j i p, reads_to dec v (Ok t) -> d_tx v = Some j -> In i (tx_arrays j) -> uses (jx_data j) i p ->
  (exists e s b, nth_error (jd_byte_arrays (jx_data j)) p = Some e /\ nth_error (jd_data_b64 (jx_data j)) (jb_data e) = Some s /\ dec s = Some b /\
    opt_all (fun n => (n < length (jd_strings (jx_data j)))%nat) (jb_name e)) /\
  ~ reaches (jx_data j) p p.
Proof.
  intros dec v t j i p H E Hi Hp. apply C33_reads_meaning in H. destruct H as (j' & E' & M). assert (j' = j) as -> by congruence. destruct (tx_means_arrays dec j t i M Hi) as (a & Ha). destruct (means_uses dec _ _ _ _ Ha Hp) as (b & Hb).
  split; [eapply means_exists; exact Hb|]. eapply means_acyclic; [apply Nat.le_refl|exact Hb].
Qed.
Print Assumptions C33_accepts_only_complete.

Definition push_tables (data : list string) (arrays : list json_byte_array) (i : nat) : json_tx :=
  JsonTx (JsonData data arrays ["f"] [] []) 2 [] [JsonOutput 0 [JsonTaggedOp (JPushByteArray i true) 0 0 0 [] None None]] 0.
Lemma push_file_tables data arrays arrays' i : d_all d_byte_array arrays = Some arrays' -> Z.of_nat i < 2 ^ 64 -> d_tx (push_file data arrays i) = Some (push_tables data arrays' i).
Proof.
  intros HA Hi. unfold d_tx. set (v := push_file data arrays i). cbv zeta. change (struct_of ["data"; "version"; "inputs"; "outputs"; "lock_time"] v) with v.
  assert (d_field "data" d_data v = Some (JsonData data arrays' ["f"] [] [])) as ->.
  { transitivity (match d_vec d_str (j_vec JStr data), d_all d_byte_array arrays, Some ["f"] with Some b, Some a, Some s => Some (JsonData b a s [] []) | _, _, _ => None end); [reflexivity|]. now rewrite d_strs, HA. }
  assert (d_field "version" d_i32 v = Some 2) as -> by reflexivity. assert (d_field "inputs" (d_vec d_input) v = Some []) as -> by reflexivity. assert (d_field "lock_time" d_u32 v = Some 0) as -> by reflexivity.
  assert (d_field "outputs" (d_vec d_output) v = Some [JsonOutput 0 [JsonTaggedOp (JPushByteArray i true) 0 0 0 [] None None]]) as ->; [|reflexivity].
  set (t := JObj [("op", JObj [("PushByteArray", JObj [("array_idx", j_nat i); ("is_minimal", JBool true)])]); ("src_file", JNum 0); ("src_line", JNum 0); ("src_column", JNum 0); ("src_code", JArr [])]).
  assert (d_tagged_op t = Some (JsonTaggedOp (JPushByteArray i true) 0 0 0 [] None None)) as HT.
  { unfold d_tagged_op. cbv zeta. change (struct_of _ t) with t. assert (d_field "op" d_op t = Some (JPushByteArray i true)) as ->; [|reflexivity].
    transitivity (match d_usize (j_nat i), Some true with Some i, Some m => Some (JPushByteArray i m) | _, _ => None end); [reflexivity|]. now rewrite d_usize_ok. }
  transitivity (d_all d_output [JObj [("value", JNum 0); ("script", JArr [t])]]); [reflexivity|]. cbn [d_all]. unfold d_output. cbv zeta. cbn [struct_of].
  assert (forall x, d_field "script" (d_vec d_tagged_op) (JObj [("value", x); ("script", JArr [t])]) = Some [JsonTaggedOp (JPushByteArray i true) 0 0 0 [] None None]) as ->; [|reflexivity].
  intros x. transitivity (d_all d_tagged_op [t]); [reflexivity|]. cbn [d_all]. now rewrite HT.
Qed.
Lemma push_tables_step dec fuel data arrays i : json_make_tx dec fuel (push_tables data arrays i) =
  match get_byte_array dec fuel i (JsonData data arrays ["f"] [] []) with
  | None => None
  | Some (Err e) => Some (Err e)
  | Some Panic => Some Panic
  | Some (Ok (a, d)) => if match jd_strings d with [] => false | _ => true end
     then Some (Ok (UnhashedTx 2 [] [TxOutput 0 [TaggedOp (OPushArray a true) (hd "" (jd_strings d)) 0 0 [] None None]] 0)) else Some (Err (EInvalidStringIdx 0))
  end.
Proof.
  unfold json_make_tx, push_tables. cbn [jx_inputs jx_outputs jx_data jx_version jx_lock_time rmap]. unfold to_output, to_script. cbn [jo_script rmap jo_value]. unfold to_tagged_op.
  cbn [jt_op jt_src_file jt_src_line jt_src_column jt_src_code jt_pushed_names jt_alt_pushed_names to_op rmap roption]. unfold rbind, rret.
  destruct (get_byte_array dec fuel i _) as [[[a d]|e|]|]; try reflexivity. unfold get_string. destruct (jd_strings d); reflexivity.
Qed.
(** Missing arrays crash the reader, for every decoder and index. *)
Theorem C33_missing_array_refuted : forall dec i, Z.of_nat i < 2 ^ 64 -> reads_to dec (push_file [] [] i) Panic.
Proof.
  intros dec i Hi. exists 1%nat. intros [|fuel] Hf; [lia|]. unfold json_to_tx. rewrite (push_file_tables [] [] [] i eq_refl Hi). 
  rewrite push_tables_step. cbn [get_byte_array jd_byte_arrays]. destruct i; reflexivity.
Qed.
Print Assumptions C33_missing_array_refuted.
(** An entry that lists itself as its preimage makes the reader recurse forever. *)
Theorem C33_self_reference_refuted : forall dec data, never_stops dec (push_file data [JArr [JNum 0; JStr "Sha256"; JNull; JArr [JNum 0]]] 0).
Proof.
  intros dec data fuel. unfold json_to_tx. rewrite (push_file_tables data _ [JsonByteArray 0 FSha256 None (Some [0%nat])] 0); [|reflexivity|reflexivity].
  assert (H : forall n d, jd_byte_arrays d = [JsonByteArray 0 FSha256 None (Some [0%nat])] -> get_byte_array dec n 0 d = None).
  { induction n as [|n IH]; intros d Hd; [reflexivity|]. cbn [get_byte_array]. rewrite Hd. cbn [nth_error jb_preimages roption rmap]. unfold rbind at 1. cbn [rmap]. unfold rbind at 1 2. now rewrite (IH d Hd). }
  rewrite push_tables_step, H; reflexivity.
Qed.
Print Assumptions C33_self_reference_refuted.
(** A reference cycle of any length through first preimages does the same. *)
Theorem C33_cycle_refuted : forall dec data arrays arrays' i next, d_all d_byte_array arrays = Some arrays' -> Z.of_nat i < 2 ^ 64 ->
  (forall k e, nth_error arrays' k = Some e -> exists r, jb_preimages e = Some (next k :: r) /\ (next k < length arrays')%nat) -> (i < length arrays')%nat ->
  never_stops dec (push_file data arrays i).
Proof.
  intros dec data arrays arrays' i next HA Hi HC Hl fuel. unfold json_to_tx. rewrite (push_file_tables data arrays arrays' i HA Hi).
  assert (H : forall n k d, jd_byte_arrays d = arrays' -> (k < length arrays')%nat -> get_byte_array dec n k d = None).
  { induction n as [|n IH]; intros k d Hd Hk; [reflexivity|]. cbn [get_byte_array]. rewrite Hd. destruct (nth_error arrays' k) as [e|] eqn:E; [|apply nth_error_None in E; lia]. destruct (HC k e E) as (r & -> & Hn).
    cbn [roption rmap]. unfold rbind at 1. cbn [rmap]. unfold rbind at 1 2. now rewrite (IH _ d Hd Hn). }
  rewrite push_tables_step, H; [reflexivity|reflexivity|exact Hl].
Qed.
Print Assumptions C33_cycle_refuted.

(** A file of [n + 1] array entries can describe an array with more than 2^n nodes, all of which the reader builds. *)
Definition doubling_entry (k : nat) : json_byte_array := JsonByteArray 0 FPlain None (match k with O => None | S k => Some [k; k] end).
Fixpoint doubled (b : list Z) (k : nat) : barray := BA b None FPlain (match k with O => None | S k => Some [doubled b k; doubled b k] end).
Lemma doubled_size b k : (2 ^ k <= tree_size (doubled b k))%nat.
Proof. induction k as [|k IH]; [cbn; lia|]. cbn [doubled tree_size Nat.pow]. lia. Qed.
Theorem C33_blow_up_refuted : forall dec s b n, dec s = Some b -> Z.of_nat n < 2 ^ 64 ->
  exists t a, reads_to dec (push_file [s] (map doubling (seq 0 (S n))) n) (Ok t) /\ tx_outputs t = [TxOutput 0 [TaggedOp (OPushArray a true) "f" 0 0 [] None None]] /\ (2 ^ n <= tree_size a)%nat.
Proof.
  intros dec s b n Hs Hn. exists (UnhashedTx 2 [] [TxOutput 0 [TaggedOp (OPushArray (doubled b n) true) "f" 0 0 [] None None]] 0), (doubled b n). split; [|split; [reflexivity|apply doubled_size]].
  apply C33_reads_meaning. exists (push_tables [s] (map doubling_entry (seq 0 (S n))) n). split.
  - apply push_file_tables; [|exact Hn]. assert (forall l, (forall k, In k l -> Z.of_nat k < 2 ^ 64) -> d_all d_byte_array (map doubling l) = Some (map doubling_entry l)) as H.
    { induction l as [|k l IH]; intros Hl; [reflexivity|]. cbn [map d_all]. rewrite IH by (intros x Hx; apply Hl; now right). specialize (Hl k (or_introl eq_refl)). clear - Hl. replace (d_byte_array (doubling k)) with (Some (doubling_entry k)); [reflexivity|]. symmetry.
      destruct k as [|k]; [reflexivity|]. unfold doubling, d_byte_array, d_tuple, d_tuple_a. assert (d_opt (d_vec d_usize) (JArr [j_nat k; j_nat k]) = Some (Some [k; k])) as ->; [|reflexivity].
      cbn [d_opt d_vec d_all]. rewrite d_usize_ok by (unfold idx64; lia). reflexivity. }
    apply H. intros k Hk. apply in_seq in Hk. lia.
  - split; [reflexivity|]. split; [constructor|]. split; [|reflexivity]. constructor; [|constructor]. split; [reflexivity|]. constructor; [|constructor]. split; [|repeat (split; [reflexivity|]); split; [constructor|split; exact I]].
    split; [|reflexivity]. unfold push_tables. cbn [jx_data]. assert (forall k, (k <= n)%nat -> array_means dec (JsonData [s] (map doubling_entry (seq 0 (S n))) ["f"] [] []) (doubled b k) k) as H; [|apply H; lia].
    induction k as [|k IH]; intros Hk; cbn [doubled]; rewrite array_means_eq; cbn [jd_byte_arrays jd_data_b64].
    + exists (doubling_entry 0), s. repeat (split; [reflexivity || exact Hs || exact I|]). exact I.
    + exists (doubling_entry (S k)), s. split; [rewrite nth_error_map, (nth_error_nth' (seq 0 (S n)) O) by (rewrite seq_length; lia); rewrite seq_nth by lia; reflexivity|]. repeat (split; [reflexivity || exact Hs || exact I|]). cbn [doubling_entry jb_preimages opt_rel].
      constructor; [apply IH; lia|]. constructor; [apply IH; lia|constructor].
Qed.
Print Assumptions C33_blow_up_refuted.

(** Dangling strings and data, undecodable data and over-large integers are errors. *)
Example C33_nonvacuous :
  (exists j, d_tx (tx_to_json rfc_encode ex_json_tx) = Some j /\ no_cycles (jx_data j) /\ Forall (fun i => (i < length (jd_byte_arrays (jx_data j)))%nat) (tx_arrays j)) /\ json_to_tx rfc_decode 9 (push_file ["AQID"] [JNum 1] 0) = Some (Err (EInvalidDataIdx 1)) /\ json_to_tx rfc_decode 9 (push_file ["AQI"] [JNum 0] 0) = Some (Err EDecode) /\ json_to_tx rfc_decode 9 (push_file ["AQID"] [JArr [JNum 0; JStr "Plain"; JNum 3]] 0) = Some (Err (EInvalidStringIdx 3)) /\ json_to_tx rfc_decode 9 (JArr []) = Some (Err (EJson JShape)) /\ (exists t, json_to_tx rfc_decode 9 (push_file ["AQID"] [JNum 0] 0) = Some (Ok t)).
Proof.
  split; [|repeat (split; [vm_compute; reflexivity|]); eexists; vm_compute; reflexivity].
  destruct (written_ok rfc_encode rfc_decode ex_json_tx rfc_base64_ok ex_json_in_range ltac:(unfold tables_fit; vm_compute; reflexivity)) as (d & ins & outs & E & W & D). eexists. split; [exact D|]. cbn [jx_data reset jd_byte_arrays].
  assert (Ed : d = jx_data (json_from_tx rfc_encode ex_json_tx)) by (rewrite E; reflexivity). split.
  - exists (fun i => i). intros idx p (j & ps & H1 & H2 & H3). destruct (w_arr _ d W idx j H1) as (_ & _ & H). rewrite H2 in H. cbn [opt_all] in H. rewrite Forall_forall in H. specialize (H p H3). assert (idx < length (jd_byte_arrays d))%nat by (apply nth_error_Some; cbn [reset jd_byte_arrays] in H1; congruence). cbn [reset jd_byte_arrays]. lia.
  - unfold tx_arrays. cbn [jx_inputs jx_outputs]. rewrite Ed. replace ins with (jx_inputs (json_from_tx rfc_encode ex_json_tx)) by (rewrite E; reflexivity). replace outs with (jx_outputs (json_from_tx rfc_encode ex_json_tx)) by (rewrite E; reflexivity).
    vm_compute. repeat constructor.
Qed.
