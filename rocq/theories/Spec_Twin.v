(** Twins: API values that differ only in annotations, i.e. in names, functions and preimages of byte arrays and in
    the source tags and item names of tagged ops. *)
From Verif Require Import Base Model_ByteArray Model_Opcode Model_Script Model_Code Model_Address Model_Destination Model_Preimage Model_TxBuilder Spec_TxBuilder.
Local Open Scope Z_scope.
Local Open Scope list_scope.

(** Both succeed with related results, or both fail with the same error, or both panic. *)
Definition orel {A B} (R : A -> B -> Prop) (x : outcome A) (y : outcome B) : Prop :=
  match x, y with
  | Ok a, Ok b => R a b
  | Err e, Err e' => e = e'
  | Panic, Panic => True
  | _, _ => False
  end.
Definition oprel {A} (R : A -> A -> Prop) (x y : option A) : Prop :=
  match x, y with Some a, Some b => R a b | None, None => True | _, _ => False end.

Definition twin_array (a b : barray) : Prop := ba_data a = ba_data b.
Definition twin_op (o o' : op) : Prop :=
  match o, o' with
  | OPushArray a m, OPushArray a' m' => twin_array a a' /\ m = m'
  | OPushArray _ _, _ | _, OPushArray _ _ => False
  | _, _ => o = o'
  end.
Definition twin_tagged (t t' : tagged_op) : Prop := twin_op (t_op t) (t_op t').
Definition twin_script (s s' : script) : Prop := Forall2 twin_tagged s s'.
Definition twin_outpoint (a b : tx_outpoint) : Prop := twin_array (op_tx_hash a) (op_tx_hash b) /\ op_vout a = op_vout b.
Definition twin_input (a b : tx_input) : Prop :=
  twin_outpoint (in_prev_out a) (in_prev_out b) /\ twin_script (in_script a) (in_script b) /\ in_sequence a = in_sequence b /\
  oprel twin_script (in_lock_script a) (in_lock_script b) /\ in_value a = in_value b /\ in_is_p2sh a = in_is_p2sh b /\
  in_sig_hash_flags a = in_sig_hash_flags b.
Definition twin_output (a b : tx_output) : Prop := out_value a = out_value b /\ twin_script (out_script a) (out_script b).
Definition twin_tx (a b : unhashed_tx) : Prop :=
  tx_version a = tx_version b /\ Forall2 twin_input (tx_inputs a) (tx_inputs b) /\ Forall2 twin_output (tx_outputs a) (tx_outputs b) /\
  tx_lock_time a = tx_lock_time b.
Definition twin_hashed (a b : tx) : Prop :=
  twin_tx (tx_unhashed a) (tx_unhashed b) /\ twin_array (tx_hash a) (tx_hash b) /\ twin_array (tx_raw a) (tx_raw b).
Definition twin_preimage (a b : tx_preimage) : Prop :=
  pi_version a = pi_version b /\ twin_array (pi_hash_prevouts a) (pi_hash_prevouts b) /\ twin_array (pi_hash_sequence a) (pi_hash_sequence b) /\
  twin_outpoint (pi_outpoint a) (pi_outpoint b) /\ twin_script (pi_script_code a) (pi_script_code b) /\ pi_value a = pi_value b /\
  pi_sequence a = pi_sequence b /\ twin_array (pi_hash_outputs a) (pi_hash_outputs b) /\ pi_lock_time a = pi_lock_time b /\
  pi_sig_hash_type a = pi_sig_hash_type b.
Definition twin_address (a b : address) : Prop :=
  ad_type a = ad_type b /\ twin_array (ad_hash a) (ad_hash b) /\ ad_text a = ad_text b /\ ad_prefix a = ad_prefix b /\ ad_kind a = ad_kind b.
Definition twin_destination (a b : destination) : Prop :=
  match a, b with
  | Nulldata o, Nulldata o' => Forall2 twin_op o o'
  | DAddress x, DAddress y => twin_address x y
  | P2PK x, P2PK y => x = y
  | Unknown s, Unknown s' => twin_script s s'
  | _, _ => False
  end.

(** Two codec values of a type [A] with twin relation [T] serialise to the same bytes; two byte arrays with the same
    bytes are read as twins, leaving the same bytes unread. *)
Definition blind {A} (c : codec A) (T : A -> A -> Prop) : Prop :=
  (forall a b, T a b -> orel twin_array (c_ser c a) (c_ser c b)) /\
  (forall x y, twin_array x y -> bytes_ok (ba_data x) ->
     orel (fun p q => T (fst p) (fst q) /\ twin_array (snd p) (snd q) /\ bytes_ok (ba_data (snd p))) (c_deser_rest c x) (c_deser_rest c y)).

Section Builders.
Context {sigs : Z -> Type}.
(** When two signatures of the same type are twins. *)
Variable twin_sig : forall ty, sigs ty -> sigs ty -> Prop.
Inductive twin_any : any sigs -> any sigs -> Prop :=
| TwinAny ty v w : twin_sig ty v w -> twin_any (Any ty v) (Any ty w).
(** Signing code that does not look at annotations. *)
Definition twin_func (f g : func_script sigs) : Prop :=
  forall pre pre' est sg sg' lock lock' outs outs',
    Forall2 twin_preimage pre pre' -> oprel twin_any sg sg' -> twin_script lock lock' -> Forall2 twin_output outs outs' ->
    orel twin_script (f pre est sg lock outs) (g pre' est sg' lock' outs').
Definition twin_unsigned_input (a b : unsigned_tx_input) : Prop :=
  twin_outpoint (ui_prev_out a) (ui_prev_out b) /\ ui_sequence a = ui_sequence b /\ ui_value a = ui_value b.
Definition twin_builder_input (a b : builder_input sigs) : Prop :=
  twin_unsigned_input (bi_input a) (bi_input b) /\ twin_func (bi_func a) (bi_func b) /\ bi_flags a = bi_flags b /\
  oprel twin_script (bi_lock_script a) (bi_lock_script b) /\ bi_is_p2sh a = bi_is_p2sh b /\
  oprel twin_input (bi_signed a) (bi_signed b).
Definition twin_builder_output (a b : builder_output) : Prop :=
  match a, b with
  | KnownValue o, KnownValue o' => twin_output o o'
  | Leftover l u p s, Leftover l' u' p' s' => l = l' /\ u = u' /\ p = p' /\ twin_script s s'
  | _, _ => False
  end.
Definition twin_builder (a b : tx_builder sigs) : Prop :=
  b_version a = b_version b /\ Forall2 twin_builder_input (b_inputs a) (b_inputs b) /\
  Forall2 twin_builder_output (b_outputs a) (b_outputs b) /\ b_lock_time a = b_lock_time b /\ b_fee_per_kb a = b_fee_per_kb b.
Definition twin_unsigned (a b : unsigned_tx sigs) : Prop :=
  twin_builder (u_builder a) (u_builder b) /\ Forall2 twin_output (u_outputs a) (u_outputs b) /\
  Forall2 (Forall2 twin_preimage) (u_preimages a) (u_preimages b) /\
  Forall2 (oprel twin_input) (u_inputs a) (u_inputs b) /\ u_estimated_size a = u_estimated_size b.
(** Signatories (typed signing code) that do not look at annotations; both must have the same signature type. *)
Definition twin_kind ty (k k' : signatory_kind sigs ty) : Prop :=
  match k, k' with
  | KindOne _ f b, KindOne _ f' b' => f = f' /\
      forall p p' est v w lock lock' outs outs', twin_preimage p p' -> twin_sig ty v w -> twin_script lock lock' -> Forall2 twin_output outs outs' ->
        orel twin_script (b p est v lock outs) (b' p' est w lock' outs')
  | KindMultiple _ f b, KindMultiple _ f' b' => f = f' /\
      forall p p' est v w lock lock' outs outs', Forall2 twin_preimage p p' -> twin_sig ty v w -> twin_script lock lock' -> Forall2 twin_output outs outs' ->
        orel twin_script (b p est v lock outs) (b' p' est w lock' outs')
  | _, _ => False
  end.
Inductive twin_signatory : signatory sigs -> signatory sigs -> Prop :=
| TwinSignatory ty p p' sh k k' : twin_sig ty p p' -> twin_kind ty k k' -> twin_signatory (Signatory ty p sh k) (Signatory ty p' sh k').
(** Two histories of builder calls that make the same calls in the same order with twin arguments, and the builders
    they lead to. *)
Inductive twin_history : tx_builder sigs -> tx_builder sigs -> Prop :=
| th_new version lock_time fee : twin_history (new_with_fee sigs version lock_time fee) (new_with_fee sigs version lock_time fee)
| th_from_tx t t' : twin_tx t t' -> twin_history (from_tx sigs t) (from_tx sigs t')
| th_set_fee b b' fee : twin_history b b' -> twin_history (set_fee_per_kb b fee) (set_fee_per_kb b' fee)
| th_add_input b b' i i' l l' s s' : twin_history b b' -> twin_unsigned_input i i' -> twin_script l l' -> twin_signatory s s' ->
    twin_history (fst (add_input b i l s)) (fst (add_input b' i' l' s'))
| th_add_output b b' o o' : twin_history b b' -> twin_output o o' -> twin_history (add_output b o) (add_output b' o')
| th_add_leftover b b' s s' : twin_history b b' -> twin_script s s' -> twin_history (add_leftover_output b s) (add_leftover_output b' s')
| th_add_bounded b b' lo up p s s' : twin_history b b' -> twin_script s s' ->
    twin_history (add_leftover_output_bounded b lo up p s) (add_leftover_output_bounded b' lo up p s').
(** Two signing calls for the same input with twin signatures (and twin signatories). *)
Inductive twin_sign_op : sign_op -> sign_op -> Prop :=
| TwinSign i sg sg' : twin_any sg sg' -> twin_sign_op (SignInput i sg) (SignInput i sg')
| TwinSignSignatory i ty p p' sh k k' v w :
    twin_signatory (Signatory ty p sh k) (Signatory ty p' sh k') -> twin_sig ty v w ->
    twin_sign_op (SignInputSignatory i (Signatory ty p sh k) v) (SignInputSignatory i (Signatory ty p' sh k') w).
(** Build, sign, complete and hash: what a wallet does with a builder. *)
Definition finish (sha : list Z -> list Z) (release : bool) (b : tx_builder sigs) (l : list sign_op) : outcome tx :=
  do u <- build sha release b; do u' <- apply_ops u l; do t <- complete_tx u'; tx_hashed sha 1 1 t.
End Builders.
