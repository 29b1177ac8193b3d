(** Model of bitcoin-cash/src/tx_builder.rs. *)
From Verif Require Import Base Model_ByteArray Model_Opcode Model_Script Model_Code Model_Address Model_Destination Model_Preimage.
Local Open Scope Z_scope.
Local Open Scope list_scope.

(** tx_builder.rs:11-12 *)
Definition DEFAULT_FEE_PER_KB : Z := 1000.
Definition DUST_AMOUNT : Z := 546.
Definition U64_MAX : Z := 2 ^ 64 - 1.

(** u64 [+] and [*]: on overflow a debug build panics, a release build wraps ([release]). *)
Definition u64_of (release : bool) (v : Z) : outcome Z :=
  if v <? 2 ^ 64 then Ok v else if release then Ok (v mod 2 ^ 64) else Panic.
Fixpoint u64_sum (release : bool) (acc : Z) (l : list Z) : outcome Z :=
  match l with
  | [] => Ok acc
  | x :: r => do s <- u64_of release (acc + x); u64_sum release s r
  end.

(** tx_builder.rs:14-20 *)
Record unsigned_tx_input : Type := UnsignedTxInput { ui_prev_out : tx_outpoint; ui_sequence : Z; ui_value : Z }.

(** tx_builder.rs:36-45 *)
Inductive builder_output : Type :=
| KnownValue (o : tx_output)
| Leftover (lower_bound upper_bound precedence : Z) (s : script).

Section TxBuilder.
(** The external hash function, and whether this is a release build. *)
Variable sha256d : list Z -> list Z.
Variable release : bool.
(** [dyn Any]: a value together with its type id; [sigs ty] is the type with id [ty] *)
Variable sigs : Z -> Type.
Record any : Type := Any { any_type : Z; any_val : sigs any_type }.
(** [Box<dyn Any>::downcast] *)
Definition downcast (ty : Z) (a : any) : option (sigs ty) :=
  match Z.eq_dec (any_type a) ty with
  | left e => Some (eq_rect (any_type a) sigs (any_val a) ty e)
  | right _ => None
  end.

(** tx_builder.rs:90-118, 637-663 [Signatory], [SignatoryKindOne], [SignatoryKindMultiple].  User code:
    [build_script] is an arbitrary function which may panic. *)
Inductive signatory_kind (ty : Z) : Type :=
| KindOne (flags : Z) (build : tx_preimage -> option Z -> sigs ty -> script -> list tx_output -> outcome script)
| KindMultiple (flags : list Z) (build : list tx_preimage -> option Z -> sigs ty -> script -> list tx_output -> outcome script).
Record signatory : Type := Signatory { s_type : Z; s_placeholder : sigs s_type; s_is_p2sh : bool; s_kind : signatory_kind s_type }.
(** sig_hash_flags_vec *)
Definition s_flags (s : signatory) : list Z :=
  match s_kind s with KindOne _ f _ => [f] | KindMultiple _ fs _ => fs end.
(** build_script after make_tx_preimages *)
Definition s_build (s : signatory) (pre : list tx_preimage) (est : option Z) (sg : sigs (s_type s)) (lock : script) (outs : list tx_output) : outcome script :=
  match s_kind s with
  | KindOne _ _ b => match pre with [] => Panic | p :: _ => b p est sg lock outs end
  | KindMultiple _ _ b => b pre est sg lock outs
  end.
(** build_script plus the redeem script push (tx_builder.rs:205-212, 544-553) *)
Definition s_script (s : signatory) (pre : list tx_preimage) (est : option Z) (sg : sigs (s_type s)) (lock : script) (outs : list tx_output) : outcome script :=
  do ops <- s_build s pre est sg lock outs;
  if s_is_p2sh s then do ser <- script_ser_ops lock; Ok (ops ++ [tagged_from_op (op_from_array ser)]) else Ok ops.

(** tx_builder.rs:22-34 *)
Definition func_script : Type := list tx_preimage -> option Z -> option any -> script -> list tx_output -> outcome script.
Record builder_input : Type := BuilderInput {
  bi_input : unsigned_tx_input; bi_func : func_script; bi_flags : list Z; bi_lock_script : option script;
  bi_is_p2sh : option bool; bi_signed : option tx_input
}.
(** tx_builder.rs:47-54 *)
Record tx_builder : Type := TxBuilder {
  b_version : Z; b_inputs : list builder_input; b_outputs : list builder_output; b_lock_time : Z; b_fee_per_kb : Z
}.
(** tx_builder.rs:121-150 *)
Definition new_with_fee (version lock_time fee_per_kb : Z) : tx_builder := TxBuilder version [] [] lock_time fee_per_kb.
Definition builder_new (version lock_time : Z) : tx_builder := new_with_fee version lock_time DEFAULT_FEE_PER_KB.
Definition new_simple : tx_builder := builder_new 1 0.
(** tx_builder.rs:47-54 [#[derive(Default)]]: zeros *)
Definition builder_default : tx_builder := TxBuilder 0 [] [] 0 0.

(** tx_builder.rs:152-181 [from_tx] *)
Definition from_tx_input (i : tx_input) : builder_input :=
  BuilderInput
    (UnsignedTxInput (in_prev_out i) (in_sequence i) (match in_value i with Some v => v | None => 0 end))
    (fun _ _ _ _ _ => Ok (in_script i))
    (match in_sig_hash_flags i with Some f => f | None => [] end)
    (in_lock_script i) (in_is_p2sh i) (Some i).
Definition from_tx (t : unhashed_tx) : tx_builder :=
  TxBuilder (tx_version t) (map from_tx_input (tx_inputs t)) (map KnownValue (tx_outputs t)) (tx_lock_time t) DEFAULT_FEE_PER_KB.

(** tx_builder.rs:183-185 *)
Definition set_fee_per_kb (b : tx_builder) (fee : Z) : tx_builder :=
  TxBuilder (b_version b) (b_inputs b) (b_outputs b) (b_lock_time b) fee.

(** tx_builder.rs:187-228 [add_input]; returns the input's reference (its index) *)
Definition signatory_func (s : signatory) : func_script := fun pre est sg lock outs =>
  do v <- match sg with
          | Some a => expect (downcast (s_type s) a)
          | None => Ok (s_placeholder s)
          end;
  s_script s pre est v lock outs.
Definition add_input (b : tx_builder) (input : unsigned_tx_input) (lock : script) (s : signatory) : tx_builder * nat :=
  (TxBuilder (b_version b)
     (b_inputs b ++ [BuilderInput input (signatory_func s) (s_flags s) (Some lock) (Some (s_is_p2sh s)) None])
     (b_outputs b) (b_lock_time b) (b_fee_per_kb b),
   length (b_inputs b)).

Definition add_builder_output (b : tx_builder) (o : builder_output) : tx_builder :=
  TxBuilder (b_version b) (b_inputs b) (b_outputs b ++ [o]) (b_lock_time b) (b_fee_per_kb b).
(** tx_builder.rs:230-233 *)
Definition add_output (b : tx_builder) (o : tx_output) : tx_builder := add_builder_output b (KnownValue o).
(** tx_builder.rs:235-239 *)
Definition add_outputs (b : tx_builder) (os : list tx_output) : tx_builder := fold_left add_output os b.
(** tx_builder.rs:241-248 *)
Definition add_leftover_output (b : tx_builder) (s : script) : tx_builder :=
  add_builder_output b (Leftover DUST_AMOUNT U64_MAX 0 s).
(** tx_builder.rs:250-263 *)
Definition add_leftover_output_bounded (b : tx_builder) (lower upper precedence : Z) (s : script) : tx_builder :=
  add_builder_output b (Leftover lower upper precedence s).

(** tx_builder.rs:273-301 [estimate_size] ([ser] does not use the in-memory sizes 1 1) *)
Definition estimate_input (outputs : list tx_output) (i : builder_input) : outcome tx_input :=
  let '(preimages, lock) := match bi_lock_script i with
    | Some l => (repeat (empty_with_script l) (length (bi_flags i)), l)
    | None => ([], [])
    end in
  do s <- bi_func i preimages None None lock outputs;
  Ok (TxInput (ui_prev_out (bi_input i)) s (ui_sequence (bi_input i)) None None None None).
Definition tx_ser (t : unhashed_tx) : outcome barray := c_ser (unhashed_tx_codec 1 1) t.
Definition estimate_size (b : tx_builder) (outputs : list tx_output) : outcome Z :=
  do inputs <- omap (estimate_input outputs) (b_inputs b);
  do s <- tx_ser (UnhashedTx (b_version b) inputs outputs (b_lock_time b));
  Ok (ba_len s).

(** The [HashMap<usize, u64>] of leftover amounts *)
Definition amounts : Type := nat -> option Z.
Definition no_amounts : amounts := fun _ => None.
Definition set_amount (m : amounts) (k : nat) (v : option Z) : amounts := fun j => if Nat.eqb j k then v else m j.

(** tx_builder.rs:303-318 [make_outputs] *)
Fixpoint make_outputs_from (m : amounts) (idx : nat) (outs : list builder_output) : list tx_output :=
  match outs with
  | [] => []
  | KnownValue o :: r => o :: make_outputs_from m (S idx) r
  | Leftover _ _ _ s :: r =>
    match m idx with
    | Some v => TxOutput v s :: make_outputs_from m (S idx) r
    | None => make_outputs_from m (S idx) r
    end
  end.
Definition make_outputs (b : tx_builder) (m : amounts) : list tx_output := make_outputs_from m 0 (b_outputs b).

(** tx_builder.rs:436-471 [TxBuilderPreimages] *)
Definition builder_sig_tx (b : tx_builder) (outputs : list tx_output) : sig_tx :=
  SigTx (b_version b)
    (map (fun i => SigInput (ui_prev_out (bi_input i)) (ui_sequence (bi_input i)) (bi_flags i) (Some (ui_value (bi_input i)))
                     (Some (match bi_lock_script i with Some l => l | None => [] end))) (b_inputs b))
    outputs (b_lock_time b).

(** tx_builder.rs:64-71, 474-490 *)
Record unsigned_tx : Type := UnsignedTx {
  u_builder : tx_builder; u_outputs : list tx_output; u_preimages : list (list tx_preimage);
  u_inputs : list (option tx_input); u_estimated_size : Z
}.

(** tx_builder.rs:326-333, 394-401: inputs that come already signed *)
Definition presigned (i : builder_input) : option tx_input :=
  match bi_signed i with
  | Some s => match in_script s with [] => None | _ => Some s end
  | None => None
  end.

(** tx_builder.rs:320-339 [build_without_estimation] *)
Fixpoint known_outputs (outs : list builder_output) : outcome (list tx_output) :=
  match outs with
  | [] => Ok []
  | KnownValue o :: r => do t <- known_outputs r; Ok (o :: t)
  | Leftover _ _ _ _ :: _ => Err (EMsg 1)
  end.
Definition build_without_estimation (b : tx_builder) : outcome unsigned_tx :=
  do outputs <- known_outputs (b_outputs b);
  do size <- estimate_size b outputs;
  do pre <- build_preimages sha256d (builder_sig_tx b outputs);
  Ok (UnsignedTx b outputs pre (map presigned (b_inputs b)) size).

(** tx_builder.rs:410-434 *)
Definition get_value (o : builder_output) : Z := match o with KnownValue o => out_value o | Leftover _ _ _ _ => 0 end.
Definition known_output_sum (b : tx_builder) : outcome Z := u64_sum release 0 (map get_value (b_outputs b)).
Definition input_sum (b : tx_builder) : outcome Z := u64_sum release 0 (map (fun i => ui_value (bi_input i)) (b_inputs b)).

(** tx_builder.rs:351-361: the leftover outputs and the stable sort by precedence *)
Fixpoint leftovers_from (idx : nat) (outs : list builder_output) : list (nat * Z) :=
  match outs with
  | [] => []
  | KnownValue _ :: r => leftovers_from (S idx) r
  | Leftover _ _ p _ :: r => (idx, p) :: leftovers_from (S idx) r
  end.
Fixpoint insert_stable (x : nat * Z) (l : list (nat * Z)) : list (nat * Z) :=
  match l with
  | [] => [x]
  | y :: r => if snd x <=? snd y then x :: y :: r else y :: insert_stable x r
  end.
Definition sort_stable (l : list (nat * Z)) : list (nat * Z) := fold_right insert_stable [] l.

(** tx_builder.rs:363-391: one iteration.  State: total_leftover, leftover_amounts, estimated_size. *)
Definition place (b : tx_builder) (idx : nat) (lower upper : Z) (st : Z * amounts * option Z) : outcome (Z * amounts * option Z) :=
  let '(total, m, est) := st in
  if total <=? lower then Ok st
  else
    let m1 := set_amount m idx (Some (Z.min total upper)) in
    do new_size <- estimate_size b (make_outputs b m1);
    do product <- u64_of release (new_size * b_fee_per_kb b);
    let fee := product / 1000 in
    if fee <=? total then
      let leftover := Z.min (total - fee) upper in
      if leftover <=? lower then Ok (total, set_amount m idx None, est)
      else Ok (total - leftover, set_amount m idx (Some leftover), Some new_size)
    else Ok (total, set_amount m idx None, est).
Fixpoint place_all (b : tx_builder) (order : list (nat * Z)) (st : Z * amounts * option Z) : outcome (Z * amounts * option Z) :=
  match order with
  | [] => Ok st
  | (idx, _) :: r =>
    match nth_error (b_outputs b) idx with
    | Some (Leftover lower upper _ _) => do st' <- place b idx lower upper st; place_all b r st'
    | Some (KnownValue _) => place_all b r st
    | None => Panic
    end
  end.

(** tx_builder.rs:341-408 [build] *)
Definition build (b : tx_builder) : outcome unsigned_tx :=
  do known <- known_output_sum b;
  do total <- input_sum b;
  if total <? known then Err (EInsufficientInputAmount (known - total))
  else
    do (tm, est) <- place_all b (sort_stable (leftovers_from 0 (b_outputs b))) (total - known, no_amounts, None);
    let '(_, m) := tm in
    do size <- match est with Some s => Ok s | None => estimate_size b (make_outputs b m) end;
    let outputs := make_outputs b m in
    do pre <- build_preimages sha256d (builder_sig_tx b outputs);
    Ok (UnsignedTx b outputs pre (map presigned (b_inputs b)) size).

Definition set_input (u : unsigned_tx) (idx : nat) (i : tx_input) : unsigned_tx :=
  UnsignedTx (u_builder u) (u_outputs u) (u_preimages u) (upd (u_inputs u) idx (Some i)) (u_estimated_size u).

(** the [TxInput] both signing functions produce (tx_builder.rs:506-520, 554-562) *)
Definition signed_input (bi : builder_input) (s : script) : tx_input :=
  TxInput (ui_prev_out (bi_input bi)) s (ui_sequence (bi_input bi)) (bi_lock_script bi) (Some (ui_value (bi_input bi)))
    (bi_is_p2sh bi) (Some (bi_flags bi)).
Definition lock_or_empty (bi : builder_input) : script := match bi_lock_script bi with Some l => l | None => [] end.

(** tx_builder.rs:492-522 [sign_input], [sign_input_dyn]; indexing out of range panics *)
Definition sign_input_dyn (u : unsigned_tx) (idx : nat) (sg : any) : outcome unsigned_tx :=
  do slot <- expect (nth_error (u_inputs u) idx);
  match slot with
  | Some _ => Err (EInputAlreadySigned (Z.of_nat idx))
  | None =>
    do bi <- expect (nth_error (b_inputs (u_builder u)) idx);
    do pre <- expect (nth_error (u_preimages u) idx);
    do s <- bi_func bi pre (Some (u_estimated_size u)) (Some sg) (lock_or_empty bi) (u_outputs u);
    Ok (set_input u idx (signed_input bi s))
  end.
Definition sign_input (u : unsigned_tx) (idx : nat) (ty : Z) (sg : sigs ty) : outcome unsigned_tx := sign_input_dyn u idx (Any ty sg).

(** tx_builder.rs:524-563 [sign_input_signatory] *)
Definition sign_input_signatory (u : unsigned_tx) (idx : nat) (s : signatory) (sg : sigs (s_type s)) : outcome unsigned_tx :=
  do slot <- expect (nth_error (u_inputs u) idx);
  match slot with
  | Some _ => Err (EInputAlreadySigned (Z.of_nat idx))
  | None =>
    do bi <- expect (nth_error (b_inputs (u_builder u)) idx);
    do pre <- expect (nth_error (u_preimages u) idx);
    do sc <- s_script s pre (Some (u_estimated_size u)) sg (lock_or_empty bi) (u_outputs u);
    Ok (set_input u idx (signed_input bi sc))
  end.

(** tx_builder.rs:576-589 [complete_tx] *)
Definition complete_tx (u : unsigned_tx) : outcome unhashed_tx :=
  do inputs <- omap expect (u_inputs u);
  Ok (UnhashedTx (b_version (u_builder u)) inputs (u_outputs u) (b_lock_time (u_builder u))).

(** tx_builder.rs:591-613 [partial_tx] ([zip] stops at the shorter list) *)
Fixpoint partial_inputs (slots : list (option tx_input)) (bis : list builder_input) : list tx_input :=
  match slots, bis with
  | s :: slots', bi :: bis' => (match s with Some i => i | None => signed_input bi [] end) :: partial_inputs slots' bis'
  | _, _ => []
  end.
Definition partial_tx (u : unsigned_tx) : unhashed_tx :=
  UnhashedTx (b_version (u_builder u)) (partial_inputs (u_inputs u) (b_inputs (u_builder u))) (u_outputs u) (b_lock_time (u_builder u)).

(** tx_builder.rs:615-617 *)
Definition into_tx_builder (u : unsigned_tx) : tx_builder := u_builder u.
End TxBuilder.
(** [sigs] is left implicit from here on. *)
Arguments any_type {sigs}.
Arguments any_val {sigs}.
Arguments downcast {sigs}.
Arguments s_type {sigs}.
Arguments s_placeholder {sigs}.
Arguments s_is_p2sh {sigs}.
Arguments s_kind {sigs}.
Arguments s_flags {sigs}.
Arguments s_build {sigs}.
Arguments s_script {sigs}.
Arguments bi_input {sigs}.
Arguments bi_func {sigs}.
Arguments bi_flags {sigs}.
Arguments bi_lock_script {sigs}.
Arguments bi_is_p2sh {sigs}.
Arguments bi_signed {sigs}.
Arguments b_version {sigs}.
Arguments b_inputs {sigs}.
Arguments b_outputs {sigs}.
Arguments b_lock_time {sigs}.
Arguments b_fee_per_kb {sigs}.
Arguments set_fee_per_kb {sigs}.
Arguments signatory_func {sigs}.
Arguments add_input {sigs}.
Arguments add_builder_output {sigs}.
Arguments add_output {sigs}.
Arguments add_outputs {sigs}.
Arguments add_leftover_output {sigs}.
Arguments add_leftover_output_bounded {sigs}.
Arguments estimate_input {sigs}.
Arguments estimate_size {sigs}.
Arguments make_outputs {sigs}.
Arguments builder_sig_tx {sigs}.
Arguments u_builder {sigs}.
Arguments u_outputs {sigs}.
Arguments u_preimages {sigs}.
Arguments u_inputs {sigs}.
Arguments u_estimated_size {sigs}.
Arguments presigned {sigs}.
Arguments set_input {sigs}.
Arguments signed_input {sigs}.
Arguments lock_or_empty {sigs}.
Arguments sign_input_dyn {sigs}.
Arguments sign_input {sigs}.
Arguments sign_input_signatory {sigs}.
Arguments complete_tx {sigs}.
Arguments partial_inputs {sigs}.
Arguments partial_tx {sigs}.
Arguments into_tx_builder {sigs}.
Arguments UnsignedTx {sigs}.
Arguments TxBuilder {sigs}.
Arguments BuilderInput {sigs}.
Arguments Any {sigs}.
Arguments Signatory {sigs}.
Arguments KindOne {sigs}.
Arguments KindMultiple {sigs}.
Arguments known_output_sum release {sigs}.
Arguments input_sum release {sigs}.
Arguments place release {sigs}.
Arguments place_all release {sigs}.
Arguments build sha256d release {sigs}.
Arguments build_without_estimation sha256d {sigs}.

(** scripts.rs:60-89: the P2PKH signatory as a [Signatory] (type id 0 = ByteArray) *)
Definition p2pkh_signatory_of (sigs : Z -> Type) (ty : Z) (to_ba : sigs ty -> barray) (of_ba : barray -> sigs ty) (g : p2pkh_signatory) : signatory sigs :=
  Signatory ty (of_ba p2pkh_placeholder) false (KindOne ty (sg_flags g) (fun _ _ sg _ _ => Ok (p2pkh_build_script g (to_ba sg)))).
