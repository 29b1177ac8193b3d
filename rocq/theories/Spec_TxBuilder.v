(** Specification vocabulary for the transaction builder: money, where leftover outputs go and what they
    get, signing histories, and which builders and unsigned transactions the API can produce. *)
From Verif Require Import Base Model_ByteArray Model_Script Model_Code Model_Destination Model_Preimage Model_TxBuilder.
Local Open Scope Z_scope.

Definition sum (l : list Z) : Z := fold_right Z.add 0 l.
Definition output_total (os : list tx_output) : Z := sum (map out_value os).
Fixpoint known_total (outs : list builder_output) : Z :=
  match outs with
  | [] => 0
  | KnownValue o :: r => out_value o + known_total r
  | Leftover _ _ _ _ :: r => known_total r
  end.

(** The final outputs when leftover output number k receives [vs[k]] ([None]: it is left out): fixed
    outputs unchanged, everything in the order it was added. *)
Inductive filled : list builder_output -> list (option Z) -> list tx_output -> Prop :=
| filled_nil : filled [] [] []
| filled_known o outs vs os : filled outs vs os -> filled (KnownValue o :: outs) (None :: vs) (o :: os)
| filled_placed lo up p s v outs vs os : filled outs vs os -> filled (Leftover lo up p s :: outs) (Some v :: vs) (TxOutput v s :: os)
| filled_skipped lo up p s outs vs os : filled outs vs os -> filled (Leftover lo up p s :: outs) (None :: vs) os.

(** Total of the amounts given out. *)
Fixpoint amount_sum (vs : list (option Z)) : Z :=
  match vs with [] => 0 | Some v :: r => v + amount_sum r | None :: r => amount_sum r end.

(** Leftover output j is served before leftover output k: smaller precedence, then position. *)
Definition served_before (pj : Z) (j : nat) (pk : Z) (k : nat) : bool := (pj <? pk) || ((pj =? pk) && Nat.ltb j k).
(** the amounts given to the leftover outputs served before number k (of precedence pk) *)
Fixpoint earlier (pk : Z) (k idx : nat) (outs : list builder_output) (vs : list (option Z)) : list (option Z) :=
  match outs, vs with
  | Leftover _ _ pj _ :: outs', v :: vs' => (if served_before pj idx pk k then v else None) :: earlier pk k (S idx) outs' vs'
  | KnownValue _ :: outs', _ :: vs' => None :: earlier pk k (S idx) outs' vs'
  | _, _ => []
  end.

Section Spec.
Context {sigs : Z -> Type}.
Notation tx_builder := (tx_builder sigs).
Notation builder_input := (builder_input sigs).
Notation unsigned_tx := (unsigned_tx sigs).
Notation signatory := (signatory sigs).
Notation any := (any sigs).

Definition input_total (b : tx_builder) : Z := sum (map (fun i => ui_value (bi_input i)) (b_inputs b)).

(** All amounts are u64 values. *)
Definition in_range (b : tx_builder) : Prop :=
  Forall (fun i => u64_ok (ui_value (bi_input i))) (b_inputs b) /\
  Forall (fun o => match o with KnownValue o => u64_ok (out_value o) | Leftover lo up _ _ => u64_ok lo /\ u64_ok up end) (b_outputs b) /\
  u64_ok (b_fee_per_kb b).
(** Neither total overflows a u64 (21 million coins are less than 2^51 satoshis). *)
Definition totals_fit (b : tx_builder) : Prop := input_total b < 2 ^ 64 /\ known_total (b_outputs b) < 2 ^ 64.
(** The size times the fee rate does not overflow a u64. *)
Definition fees_fit (b : tx_builder) : Prop :=
  forall outs size, estimate_size b outs = Ok size -> size * b_fee_per_kb b < 2 ^ 64.

(** What leftover output k (bounds lo, up, precedence pk) gets, given all amounts handed out [vs]: after
    the outputs served before it, [remaining] is left; the fee is that of the transaction containing those
    and this output; it gets the rest, capped by [up], but nothing at all unless that is more than [lo]. *)
Definition leftover_rule (b : tx_builder) (vs : list (option Z)) (k : nat) (lo up pk : Z) : Prop :=
  let vs0 := earlier pk k 0 (b_outputs b) vs in
  let remaining := input_total b - known_total (b_outputs b) - amount_sum vs0 in
  (remaining <= lo /\ nth_error vs k = Some None) \/
  (lo < remaining /\ exists outs size,
     filled (b_outputs b) (upd vs0 k (Some (Z.min remaining up))) outs /\ estimate_size b outs = Ok size /\
     let amount := Z.min (remaining - size * b_fee_per_kb b / 1000) up in
     nth_error vs k = Some (if lo <? amount then Some amount else None)).

(** The input's script builder does not look at the outputs. *)
Definition ignores_outputs (i : builder_input) : Prop :=
  forall pre est sg lock outs outs', bi_func i pre est sg lock outs = bi_func i pre est sg lock outs'.

(** User code either builds a script or panics ([build_script] does not return a [Result]). *)
Definition infallible (s : signatory) : Prop :=
  forall pre est sg lock outs e, s_build s pre est sg lock outs <> Err e.

(** With every signature in [good], the input script is not longer than with the placeholder. *)
Definition fits_placeholder (good : forall ty, sigs ty -> Prop) (s : signatory) : Prop :=
  forall sg pre est lock outs outs' placed real placed_bytes, good (s_type s) sg ->
    s_script s (repeat (empty_with_script lock) (length (s_flags s))) None (s_placeholder s) lock outs = Ok placed ->
    script_ser_ops placed = Ok placed_bytes -> s_script s pre est sg lock outs' = Ok real ->
    exists real_bytes, script_ser_ops real = Ok real_bytes /\ zlen (ba_data real_bytes) <= zlen (ba_data placed_bytes).
(** The script builder does not look at the outputs / at the size estimate. *)
Definition signatory_ignores_outputs (s : signatory) : Prop :=
  forall pre est sg lock outs outs', s_build s pre est sg lock outs = s_build s pre est sg lock outs'.
Definition signatory_ignores_estimate (s : signatory) : Prop :=
  forall pre est est' sg lock outs, s_build s pre est sg lock outs = s_build s pre est' sg lock outs.

(** Builders that can be made with the API, using only signatories from a given class. *)
Inductive constructed (allowed : signatory -> Prop) : tx_builder -> Prop :=
| co_new version lock_time fee : constructed allowed (new_with_fee sigs version lock_time fee)
| co_from_tx t : constructed allowed (from_tx sigs t)
| co_set_fee b fee : constructed allowed b -> constructed allowed (set_fee_per_kb b fee)
| co_add_input b input lock s : constructed allowed b -> allowed s -> constructed allowed (fst (add_input b input lock s))
| co_add_output b o : constructed allowed b -> constructed allowed (add_output b o)
| co_add_leftover b s : constructed allowed b -> constructed allowed (add_leftover_output b s)
| co_add_bounded b lo up p s : constructed allowed b -> constructed allowed (add_leftover_output_bounded b lo up p s).

(** One signing call, and a history of them (which stops at the first failure). *)
Inductive sign_op : Type :=
| SignInput (idx : nat) (sg : any)
| SignInputSignatory (idx : nat) (s : signatory) (sg : sigs (s_type s)).
Definition op_index (o : sign_op) : nat := match o with SignInput i _ => i | SignInputSignatory i _ _ => i end.
Definition apply_op (u : unsigned_tx) (o : sign_op) : outcome unsigned_tx :=
  match o with
  | SignInput idx sg => sign_input_dyn u idx sg
  | SignInputSignatory idx s sg => sign_input_signatory u idx s sg
  end.
Fixpoint apply_ops (u : unsigned_tx) (l : list sign_op) : outcome unsigned_tx :=
  match l with [] => Ok u | o :: r => do u' <- apply_op u o; apply_ops u' r end.

(** Unsigned transactions the API can produce from builder [b]. *)
Definition unsigned_of (sha256d : list Z -> list Z) (release : bool) (b : tx_builder) (u : unsigned_tx) : Prop :=
  exists u0 ops, (build sha256d release b = Ok u0 \/ build_without_estimation sha256d b = Ok u0) /\ apply_ops u0 ops = Ok u.

(** The transaction an unsigned transaction is turned into. *)
Definition final_tx (u : unsigned_tx) (t : unhashed_tx) : Prop := t = partial_tx u \/ complete_tx u = Ok t.

(** An input that was imported with its (non-empty) signature script. *)
Definition came_signed (bi : builder_input) : Prop := exists i, bi_signed bi = Some i /\ in_script i <> [].

(** The same outpoint, sequence and (if the input records one) value. *)
Definition spends (bi : builder_input) (i : tx_input) : Prop :=
  in_prev_out i = ui_prev_out (bi_input bi) /\ in_sequence i = ui_sequence (bi_input bi) /\
  forall v, in_value i = Some v -> v = ui_value (bi_input bi).
End Spec.

(** The P2PKH signatory, for signature values [sigs ty] holding a byte array. *)
Definition is_p2pkh (sigs : Z -> Type) (ty : Z) (to_ba : sigs ty -> barray) (of_ba : barray -> sigs ty) (s : signatory sigs) : Prop :=
  exists pk flags, length pk = 33%nat /\ bytes_ok pk /\ byte_ok flags /\ s = p2pkh_signatory_of sigs ty to_ba of_ba (P2PKHSignatory pk flags).
(** A call of sign_input with a signature from [good]. *)
Definition signs_with {sigs : Z -> Type} (good : forall ty, sigs ty -> Prop) (o : @sign_op sigs) : Prop :=
  exists idx ty sg, o = SignInput idx (Any ty sg) /\ good ty sg.
(** Signatures of at most 72 bytes. *)
Definition short_sig (sigs : Z -> Type) (ty : Z) (to_ba : sigs ty -> barray) (ty' : Z) (sg : sigs ty') : Prop :=
  exists e : ty' = ty, let x := to_ba (eq_rect ty' sigs sg ty e) in bytes_ok (ba_data x) /\ zlen (ba_data x) <= MAX_SIGNATURE_SIZE.
