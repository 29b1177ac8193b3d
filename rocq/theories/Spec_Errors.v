(** What the errors of the library report, stated about the inputs. *)
From Verif Require Import Base Model_ByteArray Model_Opcode Model_Script Spec_Integer Model_Code Model_Json Spec_Json Spec_JsonFile Model_Address Spec_Address.
Local Open Scope Z_scope.

(** * CashAddr texts *)
(** The letters after the first colon (all letters if there is none), in lower case. *)
Definition payload_letters (txt prefix chars : list Z) : Prop :=
  exists low, same_letters txt low /\ Forall (fun x => ~ 65 <= x <= 90) low /\ divided low prefix chars.
(** Position [k] holds the first letter that is not in the alphabet, and it is [x]. *)
Definition first_foreign (chars : list Z) (k : nat) (x : Z) : Prop :=
  nth_error chars k = Some x /\ (forall s, ~ b32_char s x) /\ forall j y, (j < k)%nat -> nth_error chars j = Some y -> exists s, b32_char s y.
(** The cause of a rejection. *)
Definition address_cause (txt : list Z) (e : cash_addr_err) : Prop :=
  exists prefix chars, payload_letters txt prefix chars /\
  match e with
  | AInvalidBase32Letter i x => exists k, i = Z.of_nat k /\ first_foreign chars k x
  | AInvalidChecksum => exists syms, Forall2 b32_char syms chars /\ remainder prefix syms <> 1
  | AInvalidAddressType b => exists syms h rest, Forall2 b32_char syms chars /\ remainder prefix syms = 1 /\ (length syms = 42 \/ length syms = 43)%nat /\
      bitstring 5 syms = bitstring 8 (b :: h) ++ rest /\ length h = 20%nat /\ bytes_ok h /\ byte_ok b /\ b <> 0 /\ b <> 8
  end.

(** * JSON files *)
Definition string_missing (d : json_data) (n : nat) (e : err) : Prop :=
  (length (jd_strings d) <= n)%nat /\ e = EJson (JInvalidStringIdx (Z.of_nat n)).
(** A fault of array entry [i] or of an entry it is derived from. *)
Definition array_cause (dec : string -> option (list Z)) (d : json_data) (i : nat) (e : err) : Prop :=
  exists p entry, uses d i p /\ nth_error (jd_byte_arrays d) p = Some entry /\
    ((length (jd_data_b64 d) <= jb_data entry)%nat /\ e = EJson (JInvalidDataIdx (Z.of_nat (jb_data entry))) \/
     (exists s, nth_error (jd_data_b64 d) (jb_data entry) = Some s /\ dec s = None /\ e = EJson JDecodeError) \/
     (exists n, jb_name entry = Some n /\ string_missing d n e)).
(** The strings an operation refers to. *)
Definition some_of {A} (l : list (option A)) : list A := flat_map (fun o => match o with Some a => [a] | None => [] end) l.
Definition list_of {A} (o : option (list A)) : list A := match o with Some l => l | None => [] end.
Definition op_strings (t : json_tagged_op) : list nat :=
  jt_src_file t :: map snd (jt_src_code t) ++ some_of (list_of (jt_pushed_names t)) ++ some_of (list_of (jt_alt_pushed_names t)).
Definition tagged_cause (dec : string -> option (list Z)) (d : json_data) (t : json_tagged_op) (e : err) : Prop :=
  (exists i m, jt_op t = JPushByteArray i m /\ array_cause dec d i e) \/
  (exists i, jt_op t = JPushInteger i /\ ~ script_int i /\ e = EJson (JInvalidInteger (EInvalidScriptInteger i))) \/
  (exists n, In n (op_strings t) /\ string_missing d n e).
Definition input_cause (dec : string -> option (list Z)) (d : json_data) (i : json_input) (e : err) : Prop :=
  array_cause dec d (ji_prev_out_hash i) e \/
  (exists a, array_means dec d a (ji_prev_out_hash i) /\ ba_len a <> 32 /\ e = EJson JInvalidHash) \/
  (exists t, In t (ji_script i ++ list_of (ji_lock_script i)) /\ tagged_cause dec d t e).
Definition tx_cause (dec : string -> option (list Z)) (j : json_tx) (e : err) : Prop :=
  (exists i, In i (jx_inputs j) /\ input_cause dec (jx_data j) i e) \/
  (exists o t, In o (jx_outputs j) /\ In t (jo_script o) /\ tagged_cause dec (jx_data j) t e).

(** * Consensus encodings *)
(** A report that data is missing: the end of a cursor, or a split at [i] of [n < i] bytes. *)
Definition too_short (e : err) : Prop := e = EEof \/ exists i n, n < i /\ e = EInvalidSplit i n.
(** A type whose readers fail only for lack of data, or because of bytes left over, which are reported. *)
Definition reports_truly {A} (c : codec A) : Prop :=
  (forall t e, bytes_ok (ba_data t) -> c_deser_rest c t = Err e -> too_short e) /\
  (forall t e, bytes_ok (ba_data t) -> c_deser c t = Err e -> too_short e \/ exists r, e = ELeftover r) /\
  (forall t r, bytes_ok (ba_data t) -> c_deser c t = Err (ELeftover r) <-> r <> [] /\ exists u a, ba_data t = ba_data u ++ r /\ c_deser c u = Ok a).
